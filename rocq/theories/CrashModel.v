(** Writing a package, step by step: COT/vm_description/ovf/ovf.py:834-850 (write), 2709-2742
    (generate_manifest), 2744-2800 (tar); COT/file_reference.py:229-251 and 332-352.

    TarModel and OvfWriteModel say what is there when a package has been written.  Here are the
    changes on the disk, one after the other, as each system call or library call makes them,
    and up to the error if there is one. *)
From Coq Require Import List Ascii Bool.
Import ListNotations.
From Verif Require Import PyBase PyDict ManifestModel RawModel SelectModel ItemModel PathModel PathSpec TarModel OvfWriteModel.
Local Open Scope nat_scope.

(** A change on the disk.  A TAR file may have more than one path. *)
Inductive effect : Type :=
| Write (path data : str)                    (* a file is opened for writing, written and closed *)
| Begin (tars : list str)                    (* [tarfile.open(..., 'w')] *)
| Append (tars : list str) (m : member).     (* [tarf.add], [tarf.addfile] *)
Definition apply (w : world) (e : effect) : world :=
  match e with
  | Write p d => put w p d
  | Begin ts => mkWorld (w_files w) (fun t => if mem_str t ts then Some [] else w_tars w t)
  | Append ts m => mkWorld (w_files w)
      (fun t => if mem_str t ts then option_map (fun a => a ++ [m]) (w_tars w t) else w_tars w t)
  end.
Definition perform (w : world) (es : list effect) : world := fold_left apply es w.

(** The changes that are made, and how it ends *)
Definition steps (A : Type) : Type := list effect * result A.
Definition andthen {A B : Type} (w : world) (s : steps A) (k : world -> A -> steps B) : steps B :=
  match snd s with
  | Ok a => let s' := k (perform w (fst s)) a in (fst s ++ fst s', snd s')
  | Err e => (fst s, Err e)
  end.

(** file_reference.py:232-241 and 332-341, as in OvfWriteModel.copy_to *)
Definition copy_step (w : world) (dest : str) (r : ref) : steps unit :=
  match r with
  | OnDisk d n =>
      let path := path_join d n in
      if str_eqb path (path_join dest n) then ([], Ok tt)
      else match content w r with
           | None => ([], Err EEnvironment)
           | Some data =>
               let target := path_join dest (basename path) in
               if strs_eqb (place path) (place target) then ([], Err EEnvironment)
               else ([Write target data], Ok tt)
           end
  | InTar t n =>
      match w_tars w t with
      | None => ([], Err EEnvironment)
      | Some a => match getmember a n with
                  | None => ([], Err EKeyError)
                  | Some m => ([Write (path_join dest n) (t_data m)], Ok tt)
                  end
      end
  end.
(** ovf.py:846-847 *)
Fixpoint copy_steps (w : world) (dest : str) (refs : list (str * ref)) : steps unit :=
  match refs with
  | [] => ([], Ok tt)
  | (_, r) :: rest => andthen w (copy_step w dest r) (fun w' _ => copy_steps w' dest rest)
  end.

(** the lines of the manifest before an error, ovf.py:2732-2739 *)
Fixpoint lines_so_far (algo : str) (elems : list str) (refs : list (str * str)) : str :=
  match elems with
  | [] => []
  | href :: rest => match dget str_eqb href refs with
                    | None => []
                    | Some sum => manifest_line algo href sum ++ lines_so_far algo rest refs
                    end
  end.

Section Digest.
Variable digest : str -> str.

(** ovf.py:2720-2739 generate_manifest *)
Definition manifest_steps (w : world) (ovf_file algo : str) (hrefs : list str) (refs : list (str * ref)) : steps unit :=
  let mf := splitext_root ovf_file ++ L ".mf" in
  match read w ovf_file with
  | None => ([], Err EEnvironment)
  | Some now =>
      match generate_manifest algo (basename ovf_file) (digest now) hrefs (checksums digest w refs) with
      | Err e => ([Write mf (manifest_line algo (basename ovf_file) (digest now) ++ lines_so_far algo hrefs (checksums digest w refs))], Err e)
      | Ok text => ([Write mf text], Ok tt)
      end
  end.

(** ovf.py:842-850 *)
Definition ovf_steps (w : world) (output algo xml : str) (hrefs : list str) (refs : list (str * ref)) : steps unit :=
  andthen w ([Write output xml], Ok tt) (fun w1 _ =>
  andthen w1 (copy_steps w1 (dirname (normpath output)) refs) (fun w2 _ =>
  manifest_steps w2 output algo hrefs refs)).

(** ovf.py:2768-2777: the files of the input, which is about to be overwritten *)
Fixpoint carry_steps (w : world) (wd : str) (refs : list (str * ref)) : steps (list (str * ref)) :=
  match refs with
  | [] => ([], Ok [])
  | (href, OnDisk d n) :: rest =>
      andthen w (carry_steps w wd rest) (fun _ l => ([], Ok ((href, OnDisk d n) :: l)))
  | (href, InTar t n) :: rest =>
      match content w (InTar t n) with
      | None => ([], Err EKeyError)
      | Some data =>
          andthen w ([Write (path_join wd n) data], Ok tt) (fun w' _ =>
          match create digest w' (Dir wd) href None None with
          | Err e => ([], Err e)
          | Ok rc => andthen w' (carry_steps w' wd rest) (fun _ l => ([], Ok ((href, fst rc) :: l)))
          end)
      end
  end.
(** ovf.py:2794-2800 *)
Fixpoint append_steps (w : world) (ts : list str) (refs : list (str * ref)) (hrefs : list str) : steps unit :=
  match hrefs with
  | [] => ([], Ok tt)
  | h :: rest =>
      match dget str_eqb h refs with
      | None => ([], Err EKeyError)
      | Some r => match add_to_archive w r with
                  | Err e => ([], Err e)
                  | Ok m => andthen w ([Append ts m], Ok tt) (fun w' _ => append_steps w' ts refs rest)
                  end
      end
  end.
(** ovf.py:2779-2793: the descriptor, and the manifest if there is one *)
Definition head_steps (w : world) (ts : list str) (ovf_file : str) : steps unit :=
  let mf := splitext_root ovf_file ++ L ".mf" in
  match read w ovf_file with
  | None => ([], Err EEnvironment)
  | Some xml =>
      (Append ts (mkMember (basename ovf_file) None xml) ::
        match read w mf with Some text => [Append ts (mkMember (basename mf) None text)] | None => [] end, Ok tt)
  end.
(** The paths of the archive that is written *)
Definition paths_of (output input : str) (same : bool) : list str := normpath output :: (if same then [input] else []).
(** ovf.py:2744-2800 tar *)
Definition tar_steps (w : world) (wd input : str) (same : bool) (output ovf_file : str) (hrefs : list str) (refs : list (str * ref)) : steps unit :=
  let ts := paths_of output input same in
  andthen w (if same then carry_steps w wd refs else ([], Ok refs)) (fun w1 refs' =>
  andthen w1 ([Begin ts], Ok tt) (fun w2 _ =>
  andthen w2 (head_steps w2 ts ovf_file) (fun w3 _ =>
  append_steps w3 ts refs' hrefs))).

(** ovf.py:834-841 *)
Definition ova_steps (w : world) (wd input : str) (same : bool) (output algo xml : str) (hrefs : list str) (refs : list (str * ref)) : steps unit :=
  let ovf_file := path_join wd (basename (splitext_root output) ++ L ".ovf") in
  andthen w ([Write ovf_file xml], Ok tt) (fun w1 _ =>
  andthen w1 (manifest_steps w1 ovf_file algo hrefs refs) (fun w2 _ =>
  tar_steps w2 wd input same output ovf_file hrefs refs)).
End Digest.
