(** How a package is written as a descriptor with files beside it: COT/vm_description/ovf/ovf.py:842-850
    (write, for an output file *.ovf), 2709-2742 (generate_manifest), and the copying of files,
    COT/file_reference.py:229-241 and 332-341.  The file system is that of TarModel: no
    permissions, links or full disks, and directories are made as needed. *)
From Coq Require Import List Ascii Bool.
Import ListNotations.
From Verif Require Import PyBase PyDict ManifestModel RawModel SelectModel ItemModel PathModel PathSpec TarModel.
Local Open Scope nat_scope.

(** [os.path.dirname] (posixpath.py) *)
Definition rstrip_slashes (s : str) : str := rev (lstrip_slashes (rev s)).
Definition dirname (p : str) : str :=
  let head := firstn (length p - length (basename p)) p in
  match rstrip_slashes head with [] => head | d => d end.

(** FileOnDisk.copy_to, file_reference.py:232-241, with [shutil.copy] to a directory, which
    refuses to copy a file onto itself; FileInTAR.copy_to, 332-341 *)
Definition copy_to (w : world) (dest : str) (r : ref) : result world :=
  match r with
  | OnDisk d n =>
      let path := path_join d n in
      if str_eqb path (path_join dest n) then Ok w
      else match content w r with
           | None => Err EEnvironment
           | Some data =>
               let target := path_join dest (basename path) in
               if strs_eqb (place path) (place target) then Err EEnvironment
               else Ok (put w target data)
           end
  | InTar t n =>
      match w_tars w t with
      | None => Err EEnvironment
      | Some a => match getmember a n with
                  | None => Err EKeyError
                  | Some m => Ok (put w (path_join dest n) (t_data m))
                  end
      end
  end.
(** ovf.py:846-847; what was copied before an error stays *)
Fixpoint copy_all (w : world) (dest : str) (refs : list (str * ref)) : world * result unit :=
  match refs with
  | [] => (w, Ok tt)
  | (_, r) :: rest => match copy_to w dest r with
                      | Err e => (w, Err e)
                      | Ok w' => copy_all w' dest rest
                      end
  end.

Section Digest.
Variable digest : str -> str.
(** ovf.py:842-850: the descriptor [xml], the files, the manifest.  The world after an error is
    the one before the step that fails (a manifest that is half written is not modelled). *)
Definition write_ovf (w : world) (output algo xml : str) (hrefs : list str) (refs : list (str * ref)) : world * result unit :=
  let w1 := put w output xml in
  let dest := dirname (normpath output) in
  match copy_all w1 dest refs with
  | (w2, Err e) => (w2, Err e)
  | (w2, Ok _) =>
      match read w2 output with
      | None => (w2, Err EEnvironment)
      | Some now =>
          match generate_manifest algo (basename output) (digest now) hrefs (checksums digest w2 refs) with
          | Err e => (w2, Err e)
          | Ok text => (put w2 (splitext_root output ++ L ".mf") text, Ok tt)
          end
      end
  end.
End Digest.
