(** Model of Command.check_disk_space, COT/commands/command.py:130-197. *)
From Verif Require Import PyBase.
Local Open Scope Z_scope.

(** An absolute path as the list of its components; [[]] is the root. *)
Definition path := list str.
Definition path_eqb (a b : path) : bool := if list_eq_dec (list_eq_dec Ascii.ascii_dec) a b then true else false.

(** [while dir_path and not os.path.isdir(dir_path): dir_path = dirname(dir_path)],
    command.py:165-167; the path is given innermost component first.  The root is
    taken to be a directory. *)
Fixpoint nearest_dir (isdir : path -> bool) (rev_path : path) : path :=
  match rev_path with
  | [] => []
  | _ :: parent => if isdir (rev rev_path) then rev rev_path else nearest_dir isdir parent
  end.

(** [_cached_disk_requirements] *)
Definition space_cache := list (path * (Z * Z)).
Fixpoint cache_get (d : path) (c : space_cache) : option (Z * Z) :=
  match c with
  | [] => None
  | (d', v) :: c' => if path_eqb d d' then Some v else cache_get d c'
  end.

(** A call: the arguments, what is a directory, the space available there when it is
    measured, and the user's answer if asked. *)
Record check : Type := mkcheck {
  k_required : Z;
  k_location : path;
  k_force : bool;
  k_die : bool;
  k_isdir : path -> bool;
  k_available : path -> Z;
  k_answer : bool
}.
Definition check_dir (k : check) : path := nearest_dir (k_isdir k) (rev (k_location k)).

(** check_disk_space: the result, whether the user was asked, and the new cache. *)
Definition check_disk_space (c : space_cache) (k : check) : result bool * bool * space_cache :=
  let dir := check_dir k in
  let measure :=
    let available := k_available k dir in
    let c' := (dir, (k_required k, available)) :: c in
    if k_required k <=? available then (Ok true, false, c')
    else if k_die k then
      if k_answer k then (Ok true, true, c') else (Err ESystemExit, true, c')
    else (Ok (k_answer k), true, c') in
  match cache_get dir c with
  | Some (prev_req, prev_avail) =>
      if negb (k_force k) && (k_required k <=? prev_req)
      then (Ok (k_required k <=? prev_avail), false, c)
      else measure
  | None => measure
  end.

(** The cache after some calls, oldest first. *)
Definition after_checks (h : list check) : space_cache :=
  fold_left (fun c k => snd (check_disk_space c k)) h [].
