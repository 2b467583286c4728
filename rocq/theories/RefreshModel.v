(** Model of COT/vm_description/ovf/ovf.py:856-910 (_refresh_file_references): what is
    brought up to date before a package is written. *)
From Coq Require Import List Ascii ZArith Bool.
Import ListNotations.
From Verif Require Import PyBase PyDict XmlModel NamesModel ItemModel UnitsModel DriveModel InfoModel.

(** The files as they are when the package is written; they do not change meanwhile.  A file
    is given by its name and its source, [m_sources]: a directory or an archive. *)
Record world : Type := mkWorld {
  w_exists : str -> str -> bool;              (* file_reference.py:218, 287 *)
  w_check : str -> str -> result unit;        (* refresh, file_reference.py:171-203 (see C29): whether size and checksum can be read *)
  w_size : str -> str -> result Z;            (* size after refresh, file_reference.py:222, 302 *)
  w_on_disk : str -> str -> bool;             (* file_path is not None, file_reference.py:143, 210 *)
  w_capacity : str -> str -> result str }.    (* DiskRepresentation.from_file(path).capacity, disk.py:57-96, 150-163 (see C52) *)

Section Refresh.
Variables (E : env) (W : world) (fuel : nat).
Let v : version := e_ver E.

(** ovf.py:861-872 *)
Fixpoint live_sources (l : list (str * str)) : result (list (str * str)) :=
  match l with
  | [] => Ok []
  | (n, d) :: l' =>
      if w_exists W n d then do _ <- w_check W n d; do r <- live_sources l'; Ok ((n, d) :: r)
      else live_sources l'
  end.

(** ovf.py:874-880: which children of References stay *)
Definition stays (live : list (str * str)) (e : elem) : bool :=
  negb (str_eqb (etag e) (FILE v))
  || match get_attr e (FILE_HREF v) with Some h => dmem str_eqb h live | None => false end.

(** set_capacity_of_disk (ovf.py:3036-3055) with the text that qemu-img gave *)
Definition new_capacity (c : str) : result (list (str * str)) :=
  match v with
  | V0 => Ok [(DISK_CAPACITY v, c)]
  | _ => do z <- int_or_err c; capacity_attrs fuel v z
  end.
Definition set_all (a : list (str * str)) (e : elem) : elem := fold_left (fun e kx => set_attr (fst kx) (snd kx) e) a e.
Definition refresh_capacity (m : vmd) (n d : str) (k : nat) : result vmd :=
  if w_on_disk W n d then
    do c <- w_capacity W n d;
    do sec <- the_disks m;
    do disk <- child_at sec k;
    do r <- get_capacity_from_disk E disk;
    if str_eqb (zdec r) c then Ok m
    else do a <- new_capacity c;
         Ok (with_disks (Some (set_children (update_at k (set_all a) (echildren sec)) sec)) m)
  else Ok m.
(** ovf.py:882-910, one file *)
Definition refresh_one (m : vmd) (nd : str * str) : result vmd :=
  let (n, d) := nd in
  do o <- find_place (m_refs m) (FILE v) (FILE_HREF v) (Some n);
  match o with
  | None => Err EAssertion
  | Some j =>
      do z <- w_size W n d;
      let m1 := with_refs (set_children (update_at j (set_attr (FILE_SIZE v) (zdec z)) (echildren (m_refs m))) (m_refs m)) m in
      do file <- child_at (m_refs m1) j;
      do disk <- find_disk_from_file_id v m1 (get_attr file (FILE_ID v));
      match disk with
      | None => Ok m1
      | Some k => refresh_capacity m1 n d k
      end
  end.
(** ovf.py:856-910 _refresh_file_references *)
Definition refresh_files (m : vmd) : result vmd :=
  do live <- live_sources (m_sources m);
  let refs := set_children (filter (stays live) (echildren (m_refs m))) (m_refs m) in
  fold_result refresh_one live (with_sources live (with_refs refs m)).
End Refresh.
