(** Model of how disk images are made, converted and looked into: COT/disks/disk.py,
    COT/disks/vmdk.py, COT/disks/qcow2.py, COT/disks/raw.py, COT/disks/iso.py, and
    convert_disk_if_needed of COT/vm_description/ovf/ovf.py. *)
From Coq Require Import ZArith.
From Verif Require Import PyBase PyDict PyRegex NetworkModel RawModel PathModel SelectModel.
Local Open Scope Z_scope.

(** ** Files and programs *)

(** What is in an image: anything (also what is in a file that is not an image), an empty
    disk of this capacity, or a file system with these files. *)
Inductive data : Type := Blob (s : str) | Blank (capacity : str) | Files (l : list (str * data)).
(** A file: its format (a file that is not an image is raw), its sub-format (none can be
    read from some files), and what is in it. *)
Record disk : Type := mkDisk { d_format : str; d_sub : option str; d_data : data }.
Definition drives : Type := list (str * disk).

(** A version of three numbers (distutils.version.StrictVersion without pre-releases). *)
Definition ver : Type := Z * Z * Z.
Definition at_least (v w : ver) : bool :=
  let '(a, b, c) := v in let '(x, y, z) := w in
  (x <? a) || ((x =? a) && ((y <? b) || ((y =? b) && (z <=? c)))).

(** The programs that are installed, with their versions; whether a call fails though it
    could be done, and what a failing call leaves in the file that it was to write. *)
Record programs : Type := mkPrograms {
  p_version : str -> option ver;
  p_fails : str -> list str -> drives -> bool;
  p_junk : str -> list str -> drives -> option disk }.

Definition has_version (P : programs) (name : str) (v : ver) : bool :=
  match p_version P name with Some w => at_least w v | None => false end.
Definition installed (P : programs) (name : str) : bool :=
  match p_version P name with Some _ => true | None => false end.

Definition subformat_of (s : str) : option str :=
  if starts_with (L "subformat=") s then Some (skipn 10 s) else None.
Definition streamed (d : disk) : bool :=
  str_eqb (d_format d) (L "vmdk") && match d_sub d with Some s => str_eqb s (L "streamOptimized") | None => false end.

(** The programs themselves are not part of COT: what each command line that COT uses
    writes, and where, when it can be done.  qemu-img reads streamOptimized images from
    version 1.2.0 on, and writes them from version 2.1.0 on; vmdktool only converts from raw
    to streamOptimized and back; no program puts two files of the same name into an image,
    or converts a file to itself. *)
Definition qemu_formats : list str := [L "raw"; L "qcow2"; L "vmdk"].
Definition qemu_convert (P : programs) (fmt : str) (sub : option str) (src dst : str) (f : drives) : option (str * disk) :=
  match dget str_eqb src f with
  | None => None
  | Some d =>
      if negb (mem_str fmt qemu_formats) then None
      else if str_eqb src dst then None
      else if streamed d && negb (has_version P (L "qemu-img") (1, 2, 0)) then None
      else if opt_eqb sub (Some (L "streamOptimized")) && negb (has_version P (L "qemu-img") (2, 1, 0)) then None
      else if opt_eqb sub (Some (L "None")) then None
      else Some (dst, mkDisk fmt sub (d_data d))
  end.
Definition qemu_img (P : programs) (args : list str) (f : drives) : option (str * disk) :=
  match args with
  | [a; b; fmt; x; y] =>
      if str_eqb a (L "convert") && str_eqb b (L "-O") then qemu_convert P fmt None x y f
      else if str_eqb a (L "create") && str_eqb b (L "-f") then
        (if mem_str fmt qemu_formats then Some (x, mkDisk fmt None (Blank y)) else None)
      else None
  | [a; b; fmt; c; o; x; y] =>
      if str_eqb c (L "-o") then
        match subformat_of o with
        | None => None
        | Some sub =>
            if str_eqb a (L "convert") && str_eqb b (L "-O") then qemu_convert P fmt (Some sub) x y f
            else if str_eqb a (L "create") && str_eqb b (L "-f") then
              (if mem_str fmt qemu_formats then Some (x, mkDisk fmt (Some sub) (Blank y)) else None)
            else None
        end
      else None
  | _ => None
  end.
Definition vmdktool (args : list str) (f : drives) : option (str * disk) :=
  match args with
  | [a; b; dst; src] =>
      if str_eqb a (L "-z9") && str_eqb b (L "-v") then
        match dget str_eqb src f with
        | Some d => if str_eqb (d_format d) (L "raw") && negb (str_eqb src dst)
                    then Some (dst, mkDisk (L "vmdk") (Some (L "streamOptimized")) (d_data d)) else None
        | None => None
        end
      else None
  | [a; dst; src] =>
      if str_eqb a (L "-s") then
        match dget str_eqb src f with
        | Some d => if streamed d && negb (str_eqb src dst) then Some (dst, mkDisk (L "raw") None (d_data d)) else None
        | None => None
        end
      else None
  | _ => None
  end.
Definition fatdisk (args : list str) (f : drives) : option (str * disk) :=
  match args with
  | [path; a; b; capacity; c] =>
      if str_eqb a (L "format") && str_eqb b (L "size") && str_eqb c (L "fat32")
      then Some (path, mkDisk (L "raw") None (Files [])) else None
  | [path; a; src; name] =>
      if str_eqb a (L "fileadd") then
        match dget str_eqb path f, dget str_eqb src f with
        | Some (mkDisk fmt _ (Files l)), Some d =>
            if str_eqb fmt (L "raw") && negb (mem_str name (map fst l)) then Some (path, mkDisk fmt None (Files (l ++ [(name, d_data d)]))) else None
        | _, _ => None
        end
      else None
  | _ => None
  end.
Fixpoint gather (f : drives) (paths : list str) : option (list (str * data)) :=
  match paths with
  | [] => Some []
  | p :: l => match dget str_eqb p f, gather f l with
              | Some d, Some r => if mem_str (basename p) (map fst r) then None else Some ((basename p, d_data d) :: r)
              | _, _ => None
              end
  end.
Definition mkisofs (args : list str) (f : drives) : option (str * disk) :=
  match args with
  | a :: path :: b :: c :: n :: d :: rest =>
      if str_eqb a (L "-output") && str_eqb b (L "-full-iso9660-filenames") && str_eqb c (L "-iso-level") &&
         str_eqb n (L "2") && str_eqb d (L "-allow-lowercase") then
        let '(sub, files) := match rest with
                             | r :: rest' => if str_eqb r (L "-r") then (L "rockridge", rest') else ([], rest)
                             | [] => ([], rest)
                             end in
        match gather f files with
        | Some l => Some (path, mkDisk (L "iso") (Some sub) (Files l))
        | None => None
        end
      else None
  | _ => None
  end.
Definition effect (P : programs) (name : str) (args : list str) (f : drives) : option (str * disk) :=
  if str_eqb name (L "qemu-img") then qemu_img P args f
  else if str_eqb name (L "vmdktool") then vmdktool args f
  else if str_eqb name (L "fatdisk") then fatdisk args f
  else if str_eqb name (L "mkisofs") || str_eqb name (L "genisoimage") then mkisofs args f
  else if str_eqb name (L "xorriso") then
    match args with
    | a :: b :: rest => if str_eqb a (L "-as") && str_eqb b (L "mkisofs") then mkisofs rest f else None
    | _ => None
    end
  else None.
(** the file that a command line writes, as far as it can be known from the command line *)
Definition written (name : str) (args : list str) : option str :=
  if str_eqb name (L "qemu-img") then
    (if opt_eqb (hd_error args) (Some (L "create")) then nth_error args (length args - 2) else nth_error args (length args - 1))
  else if str_eqb name (L "vmdktool") then nth_error args (length args - 2)
  else if str_eqb name (L "fatdisk") then hd_error args
  else if str_eqb name (L "xorriso") then nth_error args 3
  else nth_error args 1.

(** A computation changes the files also when it fails. *)
Definition io (A : Type) : Type := result A * drives.
Definition iret {A} (a : A) (f : drives) : io A := (Ok a, f).
Definition ibind {A B} (r : io A) (k : A -> drives -> io B) : io B :=
  match r with (Ok a, f) => k a f | (Err e, f) => (Err e, f) end.

(** helper.py:263-330 Helper.call, 617-705 check_output: a program that is not installed
    cannot be installed; a program that fails is a HelperError *)
Definition call_tool (P : programs) (name : str) (args : list str) (f : drives) : io unit :=
  if negb (installed P name) then (Err EHelperNotFound, f)
  else
    match effect P name args f with
    | Some (dst, d) => if p_fails P name args f then
                         (Err EHelperError, match p_junk P name args f with Some j => dset str_eqb dst j f | None => f end)
                       else (Ok tt, dset str_eqb dst d f)
    | None => (Err EHelperError,
        match written name args, p_junk P name args f with Some dst, Some j => dset str_eqb dst j f | _, _ => f end)
    end.
(** helper.py:708-759 helper_select, where nothing can be installed *)
Definition select (P : programs) (choices : list (str * option ver)) : result str :=
  fst (helper_select programs ver installed (fun _ _ => false)
         (fun P n => match p_version P n with Some v => Ok v | None => Err ETypeError end) at_least
         (fun P _ => (Err ERuntimeError, P)) P choices).

(** ** Images *)

(** An image object: its class and path.  The subformat is read from the file when it is
    asked for; that it is remembered does not matter here, as it is asked for once. *)
Record img : Type := mkImg { i_class : disk_class; i_path : str }.

(** disk.py:129-143 __init__ *)
Definition open_image (c : disk_class) (path : str) (f : drives) : result img :=
  match path with
  | [] => Err EValueError
  | _ => if dmem str_eqb path f then Ok (mkImg c path) else Err EHelperError
  end.

(** vmdk.py:32-50 disk_subformat, for an image of this class; the header itself is
    [header_subformat] below *)
Definition vmdk_subformat (path : str) (f : drives) : result str :=
  match dget str_eqb path f with
  | None => Err EEnvironment
  | Some d => match d_sub d with Some s => Ok s | None => Err ERuntimeError end
  end.
(** [input_image.disk_format == 'vmdk' and input_image.disk_subformat == 'streamOptimized'] *)
Definition is_streamed (i : img) (f : drives) : result bool :=
  match i_class i with
  | VMDK => match vmdk_subformat (i_path i) f with Ok s => Ok (str_eqb s (L "streamOptimized")) | Err e => Err e end
  | _ => Ok false
  end.
(** [os.path.join(output_dir, file_prefix + ext)] *)
Definition target (i : img) (dir : str) (ext : str) : str :=
  path_join dir (splitext_root (basename (i_path i)) ++ ext).
Definition lift {A} (r : result A) (f : drives) : io A := (r, f).
(** os.remove *)
Definition remove (path : str) (f : drives) : io unit :=
  if dmem str_eqb path f then (Ok tt, filter (fun e => negb (str_eqb path (fst e))) f) else (Err EEnvironment, f).
(** [finally: os.remove(path)]: an error of the cleaning up hides the earlier result *)
Definition and_remove {A} (path : str) (r : io A) : io A :=
  match remove path (snd r) with
  | (Ok _, f) => (fst r, f)
  | (Err e, f) => (Err e, f)
  end.

(** raw.py:122-151 RAW.from_other_image *)
Definition to_raw (P : programs) (i : img) (dir : str) (f : drives) : io img :=
  let out := target i dir (L ".img") in
  let qemu (f : drives) :=
    ibind (call_tool P (L "qemu-img") [L "convert"; L "-O"; L "raw"; i_path i; out] f) (fun _ f => lift (open_image RAW out f) f) in
  match is_streamed i f with
  | Err e => (Err e, f)
  | Ok true =>
      match select P [(L "qemu-img", Some (1, 2, 0)); (L "vmdktool", None)] with
      | Err e => (Err e, f)
      | Ok h => if str_eqb h (L "vmdktool")
                then ibind (call_tool P (L "vmdktool") [L "-s"; out; i_path i] f) (fun _ f => lift (open_image RAW out f) f)
                else qemu f
      end
  | Ok false => qemu f
  end.

(** qcow2.py:29-62 QCOW2.from_other_image; [again] is the recursive call.  If the first
    conversion fails, [temp_image] has no value and the cleaning up is an error itself. *)
Definition qcow2_step (again : img -> drives -> io img) (P : programs) (i : img) (dir : str) (f : drives) : io img :=
  let out := target i dir (L ".qcow2") in
  let qemu (f : drives) :=
    ibind (call_tool P (L "qemu-img") [L "convert"; L "-O"; L "qcow2"; i_path i; out] f) (fun _ f => lift (open_image QCOW2 out f) f) in
  match is_streamed i f with
  | Err e => (Err e, f)
  | Ok true =>
      match select P [(L "qemu-img", Some (1, 2, 0)); (L "vmdktool", None)] with
      | Err e => (Err e, f)
      | Ok h => if str_eqb h (L "vmdktool") then
                  match to_raw P i dir f with
                  | (Err e, f') => (Err ENameError, f')
                  | (Ok temp, f') => and_remove (i_path temp) (again temp f')
                  end
                else qemu f
      end
  | Ok false => qemu f
  end.
Definition to_qcow2 (P : programs) (i : img) (dir : str) (f : drives) : io img :=
  qcow2_step (fun j f => qcow2_step (fun _ f => (Err EOutOfFuel, f)) P j dir f) P i dir f.

(** [{0}.format(output_subformat)] *)
Definition sub_text (sub : option str) : str := match sub with Some s => s | None => L "None" end.
(** vmdk.py:52-140 VMDK.from_other_image; the warnings are not modelled *)
Definition vmdk_step (again : img -> drives -> io img) (P : programs) (i : img) (dir : str) (sub : option str) (f : drives) : io img :=
  let out := target i dir (L ".vmdk") in
  let qemu (f : drives) :=
    ibind (call_tool P (L "qemu-img") [L "convert"; L "-O"; L "vmdk"; L "-o"; L "subformat=" ++ sub_text sub; i_path i; out] f)
      (fun _ f => lift (open_image VMDK out f) f) in
  if opt_eqb sub (Some (L "streamOptimized")) then
    match select P [(L "qemu-img", Some (2, 5, 1)); (L "vmdktool", None); (L "qemu-img", Some (2, 1, 0))] with
    | Err e => (Err e, f)
    | Ok h =>
        if str_eqb h (L "vmdktool") then
          match i_class i with
          | RAW => ibind (call_tool P (L "vmdktool") [L "-z9"; L "-v"; out; i_path i] f) (fun _ f => lift (open_image VMDK out f) f)
          | _ => match to_raw P i dir f with
                 | (Err e, f') => (Err e, f')
                 | (Ok temp, f') => and_remove (i_path temp) (again temp f')
                 end
          end
        else qemu f
    end
  else qemu f.
Definition to_vmdk (P : programs) (i : img) (dir : str) (sub : option str) (f : drives) : io img :=
  vmdk_step (fun j f => vmdk_step (fun _ f => (Err EOutOfFuel, f)) P j dir sub f) P i dir sub f.

(** disk.py:181-217, iso.py:141-153: convert_to and from_other_image; [new_directory] is a
    directory *)
Definition convert_to (P : programs) (i : img) (fmt dir : str) (sub : option str) (f : drives) : io img :=
  match class_for_format fmt with
  | None => (Err ENotImplemented, f)
  | Some ISO => (Err ENotImplemented, f)
  | Some RAW => to_raw P i dir f
  | Some QCOW2 => to_qcow2 P i dir f
  | Some VMDK => to_vmdk P i dir sub f
  end.

(** ovf.py:1965-1998 convert_disk_if_needed *)
Definition convert_if_needed (P : programs) (i : img) (kind dir : str) (f : drives) : io img :=
  if negb (str_eqb kind (L "harddisk")) then (Ok i, f)
  else
    match is_streamed i f with
    | Err e => (Err e, f)
    | Ok true => (Ok i, f)
    | Ok false => convert_to P i (L "vmdk") dir (Some (L "streamOptimized")) f
    end.

(** ** New images *)

(** disk.py:277-307 _create_file: an empty disk *)
Definition create_blank (P : programs) (fmt path : str) (files : option (list str)) (capacity sub : option str) (f : drives) : io unit :=
  match files with
  | Some (_ :: _) => (Err ENotImplemented, f)
  | _ =>
      match capacity with
      | None => (Err ETypeError, f)
      | Some cap =>
          call_tool P (L "qemu-img")
            ([L "create"; L "-f"; fmt] ++ (match sub with Some s => [L "-o"; L "subformat=" ++ s] | None => [] end) ++ [path; cap]) f
      end
  end.
(** the calls of fatdisk one after the other *)
Fixpoint calls (P : programs) (l : list call) (f : drives) : io unit :=
  match l with
  | [] => (Ok tt, f)
  | (name, args) :: l' => ibind (call_tool P name args f) (fun _ f => calls P l' f)
  end.
(** os.path.getsize *)
Section Size.
Variable size : data -> Z.
Fixpoint sizes (f : drives) (paths : list str) : result (list (str * Z)) :=
  match paths with
  | [] => Ok []
  | p :: l => match dget str_eqb p f with
              | None => Err EEnvironment
              | Some d => do r <- sizes f l; Ok ((p, size (d_data d)) :: r)
              end
  end.
(** raw.py:84-120 RAW._create_file; the calls are [create_raw] of RawModel.  With a
    capacity the sizes are not asked for. *)
Definition create_raw_image (P : programs) (path : str) (files : option (list str)) (capacity sub : option str) (f : drives) : io unit :=
  match files with
  | Some (p :: l) =>
      match capacity with
      | Some (c :: cs) => calls P (create_raw path (map (fun x => (x, 0)) (p :: l)) capacity) f
      | _ => match sizes f (p :: l) with
             | Err e => (Err e, f)
             | Ok sz => calls P (create_raw path sz capacity) f
             end
      end
  | _ => create_blank P (L "raw") path None capacity sub f
  end.
(** iso.py:80-105 ISO._create_file *)
Definition create_iso (P : programs) (path : str) (files : option (list str)) (sub : str) (f : drives) : io unit :=
  match files with
  | Some (p :: l) =>
      let args := [L "-output"; path; L "-full-iso9660-filenames"; L "-iso-level"; L "2"; L "-allow-lowercase"] ++
                  (if str_eqb sub (L "rockridge") then [L "-r"] else []) ++ (p :: l) in
      match select P [(L "mkisofs", None); (L "genisoimage", None); (L "xorriso", None)] with
      | Err e => (Err e, f)
      | Ok h => call_tool P h (if str_eqb h (L "xorriso") then [L "-as"; L "mkisofs"] ++ args else args) f
      end
  | _ => (Err ERuntimeError, f)
  end.
(** vmdk.py:142-164 VMDK._create_file: the version of qemu-img is compared even if it is not
    installed *)
Definition create_vmdk (P : programs) (path : str) (files : option (list str)) (capacity sub : option str) (f : drives) : io unit :=
  let sub' := match sub with Some s => s | None => L "streamOptimized" end in
  if str_eqb sub' (L "streamOptimized") && negb (installed P (L "qemu-img")) then (Err ETypeError, f)
  else create_blank P (L "vmdk") path files capacity (Some sub') f.

(** disk.py:98-127 for_new_file and 253-275 create_file; [None] stands for an argument that
    is not given *)
Definition new_image (P : programs) (path fmt : str) (files : option (list str)) (capacity sub : option str) (f : drives) : io img :=
  match class_for_format fmt with
  | None => (Err ENotImplemented, f)
  | Some c =>
      match path with
      | [] => (Err EValueError, f)
      | _ =>
          if dmem str_eqb path f then (Err ERuntimeError, f)
          else
            match capacity, files with
            | None, None => (Err ERuntimeError, f)
            | _, _ =>
                ibind (match c with
                       | ISO => create_iso P path files (match sub with Some s => s | None => L "rockridge" end) f
                       | QCOW2 => create_blank P (L "qcow2") path files capacity sub f
                       | RAW => create_raw_image P path files capacity sub f
                       | VMDK => create_vmdk P path files capacity sub f
                       end)
                  (fun _ f => lift (open_image c path f) f)
            end
      end
  end.
End Size.

(** ** What programs print *)

(** disk.py:156-170 capacity: [re.search(r"(\d+) bytes", output)] *)
Definition re_bytes : re := RSeq (RGroup 1 (RPlus (RChr is_digit))) (RStr (L " bytes")).
Definition capacity_in (output : str) : result str :=
  match re_search re_bytes output with
  | None => Err ERuntimeError
  | Some g => match group 1 g with Some s => Ok s | None => Err ERuntimeError end
  end.

(** vmdk.py:36-46: [re.search('createType="(.* )"', header)] in the first 1000 bytes, without
    those that are not ASCII *)
Definition re_create_type : re :=
  RSeq (RStr (L "createType=""")) (RSeq (RGroup 1 (RStar (RChr (fun c => negb (Ascii.eqb c "010"))))) (RStr (L """"))).
Definition header_subformat (content : str) : result str :=
  match re_search re_create_type (filter (fun c => (N_of_ascii c <? 128)%N) (firstn 1000 content)) with
  | None => Err ERuntimeError
  | Some g => match group 1 g with Some s => Ok s | None => Err ERuntimeError end
  end.

(** [line.split()] *)
Fixpoint words_from (cur : str) (s : str) : list str :=
  match s with
  | [] => match cur with [] => [] | _ => [rev cur] end
  | c :: s' => if is_space c then match cur with [] => words_from [] s' | _ => rev cur :: words_from [] s' end
               else words_from (c :: cur) s'
  end.
Definition py_split (s : str) : list str := words_from [] s.
(** raw.py:29-56 RAW.files, from the output of fatdisk *)
Definition raw_line (line : str) : list str :=
  if starts_with (L "Listed") line then []
  else match nth_error (py_split line) 5 with Some n => [n] | None => [] end.
Definition raw_files (output : str) : list str := flat_map raw_line (split_on "010"%char output).

(** iso.py:32-49 ISO.disk_subformat and 51-76 ISO.files, from the outputs of isoinfo *)
Definition re_rock : re := RSeq (RStr (L "Rock Ridge")) (RSeq (RStar (RChr (fun c => negb (Ascii.eqb c "010")))) (RStr (L "found"))).
Definition has_rock_ridge (output : str) : bool := match re_search re_rock output with Some _ => true | None => false end.
Definition iso_line (rock : bool) (line : str) : list str :=
  match line with
  | "/"%char :: _ =>
      let line' := if negb rock && contains (L ";1") line then firstn (length (lower line) - 2) (lower line) else line in
      [skipn 1 line']
  | _ => []
  end.
Definition iso_files (rock : bool) (output : str) : list str := flat_map (iso_line rock) (split_on "010"%char output).
