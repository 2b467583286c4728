(** Model of the selection of helper programs and of disk representations:
    COT/helpers/helper.py:708-759 and COT/disks/disk.py:43-96,219-251,
    COT/disks/iso.py:107-139, COT/disks/raw.py:58-82. *)
From Verif Require Import PyBase PyRegex.
Local Open Scope Z_scope.

(** ** helper_select *)

(** A choice: the helper's name and the minimum version, if any.  The system, the
    versions and their order (distutils.StrictVersion) are parameters. *)
Section Helpers.
Variables (System Version : Type).
Variable installed : System -> str -> bool.          (* bool(helpers[name]) *)
Variable installable : System -> str -> bool.        (* helpers[name].installable *)
Variable version : System -> str -> result Version.  (* helpers[name].version *)
Variable at_least : Version -> Version -> bool.
Variable install : System -> str -> result unit * System.  (* helpers[name].install() *)

Definition choice := (str * option Version)%type.

(** [min_version is None or helpers[name].version >= min_version] *)
Definition version_ok (s : System) (c : choice) : result bool :=
  match snd c with
  | None => Ok true
  | Some m => match version s (fst c) with Ok v => Ok (at_least v m) | Err e => Err e end
  end.

(** The first loop, helper.py:741-745; [None]: nothing found *)
Fixpoint select_installed (s : System) (choices : list choice) : result (option str) :=
  match choices with
  | [] => Ok None
  | c :: l =>
      if installed s (fst c) then
        match version_ok s c with
        | Err e => Err e
        | Ok true => Ok (Some (fst c))
        | Ok false => select_installed s l
        end
      else select_installed s l
  end.

(** The second loop, helper.py:747-753 *)
Fixpoint select_installable (s : System) (choices : list choice) : result (option str) * System :=
  match choices with
  | [] => (Ok None, s)
  | c :: l =>
      if installable s (fst c) then
        match install s (fst c) with
        | (Err e, s') => (Err e, s')
        | (Ok _, s') =>
            match version_ok s' c with
            | Err e => (Err e, s')
            | Ok true => (Ok (Some (fst c)), s')
            | Ok false => select_installable s' l
            end
        end
      else select_installable s l
  end.

(** helper_select, helper.py:708-759.  The text of the error message is not
    modelled. *)
Definition helper_select (s : System) (choices : list choice) : result str * System :=
  match select_installed s choices with
  | Err e => (Err e, s)
  | Ok (Some name) => (Ok name, s)
  | Ok None =>
      match select_installable s choices with
      | (Err e, s') => (Err e, s')
      | (Ok (Some name), s') => (Ok name, s')
      | (Ok None, s') => (Err EHelperNotFound, s')
      end
  end.
End Helpers.

(** ** Disk formats *)

(** The classes in the order of [DiskRepresentation.__subclasses__()],
    COT/disks/__init__.py:41-45 *)
Inductive disk_class : Type := ISO | QCOW2 | RAW | VMDK.
Definition disk_classes : list disk_class := [ISO; QCOW2; RAW; VMDK].
Definition disk_format (c : disk_class) : str :=
  match c with ISO => L "iso" | QCOW2 => L "qcow2" | RAW => L "raw" | VMDK => L "vmdk" end.

(** class_for_format, disk.py:43-54 *)
Definition class_for_format (f : str) : option disk_class :=
  find (fun c => str_eqb (disk_format c) f) disk_classes.

(** What the file system and the helper programs say at some moment: whether a path
    exists, the bytes of a file, the output of "isoinfo -i path -d" if isoinfo is
    installed, and the output of "qemu-img info path". *)
Record world : Type := mkworld {
  w_exists : str -> bool;
  w_content : str -> str;
  w_isoinfo : option (str -> result str);
  w_qemu : str -> result str
}.

(** The outputs remembered by the two helpers, COT/helpers/qemu_img.py:44-54,
    COT/helpers/isoinfo.py:44-58 *)
Record caches : Type := mkcaches { c_iso : list (str * str); c_qemu : list (str * str) }.

Fixpoint lookup (k : str) (l : list (str * str)) : option str :=
  match l with
  | [] => None
  | (k', v) :: l' => if str_eqb k k' then Some v else lookup k l'
  end.

(** Helper.call with a cache, helper.py:308-321 *)
Definition cached_call (run : str -> result str) (cache : list (str * str)) (path : str)
  : result str * list (str * str) :=
  match lookup path cache with
  | Some out => (Ok out, cache)
  | None =>
      match run path with
      | Ok [] => (Ok [], cache)
      | Ok out => (Ok out, (path, out) :: cache)
      | Err e => (Err e, cache)
      end
  end.

(** [fileobj.read(5).decode('ascii', 'ignore') == "CD001"] at an offset, iso.py:134-138 *)
Definition magic_at (content : str) (offset : N) : bool :=
  str_eqb (filter (fun c => (N_of_ascii c <? 128)%N) (firstn 5 (skipn (N.to_nat offset) content))) (L "CD001").

(** ISO.file_is_this_type, iso.py:107-139 *)
Definition iso_confidence (w : world) (c : caches) (path : str) : result Z * caches :=
  if negb (w_exists w path) then (Err EHelperError, c) else
  match w_isoinfo w with
  | Some run =>
      match cached_call run (c_iso c) path with
      | (Ok _, iso) => (Ok 100, mkcaches iso (c_qemu c))
      | (Err EHelperError, iso) => (Ok 0, mkcaches iso (c_qemu c))
      | (Err e, iso) => (Err e, mkcaches iso (c_qemu c))
      end
  | None =>
      (Ok (if existsb (magic_at (w_content w path)) [32769; 34817; 36865]%N then 100 else 0), c)
  end.

(** ["file format: (\S* )"], disk.py:242 *)
Definition re_format : re :=
  RSeq (RStr (L "file format: ")) (RGroup 1 (RStar (RChr (fun c => negb (is_space c))))).

(** DiskRepresentation.file_is_this_type, disk.py:219-251 *)
Definition qemu_confidence (cls : disk_class) (w : world) (c : caches) (path : str) : result Z * caches :=
  if negb (w_exists w path) then (Err EHelperError, c) else
  match cached_call (w_qemu w) (c_qemu c) path with
  | (Err e, q) => (Err e, mkcaches (c_iso c) q)
  | (Ok out, q) =>
      (match re_search re_format out with
       | None => Err ERuntimeError
       | Some g =>
           match group 1 g with
           | Some f => Ok (if str_eqb f (disk_format cls) then 100 else 0)
           | None => Ok 0
           end
       end, mkcaches (c_iso c) q)
  end.

(** [os.path.splitext(path)[1]] (genericpath._splitext): the text from the last dot
    of the last component, if something other than dots precedes it there *)
Fixpoint split_last (x : ascii) (s : str) : option (str * str) :=
  match s with
  | [] => None
  | c :: s' =>
      match split_last x s' with
      | Some (a, b) => Some (c :: a, b)
      | None => if Ascii.eqb c x then Some ([], s') else None
      end
  end.
Definition splitext_ext (path : str) : str :=
  let name := match split_last "/"%char path with Some (_, n) => n | None => path end in
  match split_last "."%char name with
  | None => []
  | Some (stem, e) => if forallb (fun c => Ascii.eqb c "."%char) stem then [] else "."%char :: e
  end.

(** RAW.file_is_this_type, raw.py:58-82 *)
Definition raw_confidence (w : world) (c : caches) (path : str) : result Z * caches :=
  let (r, c') := qemu_confidence RAW w c path in
  (match r with
   | Err e => Err e
   | Ok confidence =>
       if confidence =? 100 then
         Ok (if mem_str (splitext_ext path) [L ".raw"; L ".img"] then 60 else 10)
       else Ok confidence
   end, c').

Definition file_is_this_type (cls : disk_class) : world -> caches -> str -> result Z * caches :=
  match cls with
  | ISO => iso_confidence
  | RAW => raw_confidence
  | _ => qemu_confidence cls
  end.

(** The loop of from_file, disk.py:72-85 *)
Fixpoint best_guess (w : world) (path : str) (classes : list disk_class) (c : caches)
                    (best : option disk_class) (best_confidence : Z)
  : result (option disk_class) * caches :=
  match classes with
  | [] => (Ok best, c)
  | cls :: l =>
      match file_is_this_type cls w c path with
      | (Err e, c') => (Err e, c')
      | (Ok confidence, c') =>
          if best_confidence <? confidence then best_guess w path l c' (Some cls) confidence
          else best_guess w path l c' best best_confidence
      end
  end.

(** from_file, disk.py:56-96; the result is the class of the new object *)
Definition from_file (w : world) (c : caches) (path : str) : result disk_class * caches :=
  if negb (w_exists w path) then (Err EEnvironment, c) else
  match best_guess w path disk_classes c None 0 with
  | (Err e, c') => (Err e, c')
  | (Ok (Some cls), c') => (Ok cls, c')
  | (Ok None, c') => (Err ENotImplemented, c')
  end.
