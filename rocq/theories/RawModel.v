(** Model of the size computations for bootstrap disks: COT/disks/raw.py:85-120,
    COT/commands/inject_config.py:133-166 and COT/utilities.py:69-96. *)
From Verif Require Import PyBase UnitsModel.
Local Open Scope Z_scope.

Definition sum (l : list Z) : Z := fold_left Z.add l 0.

(** [int(8 * ((capacity_val / 1024 / 1024 / 8) + 1))], raw.py:104, in Python 3:
    [capacity_val / 1024] is the float nearest to the quotient; dividing by a power
    of two again and multiplying by 8 are exact; adding 1 rounds again.  Counted in
    units of 2^-23 all numbers are integers: [round53] is the rounding to 53
    significant bits.  Sums beyond the range of floats (2^1024 bytes) are ignored. *)
Definition capacity_mib (total : Z) : Z := round53 (round53 total + 2 ^ 23) / 2 ^ 20.

(** A call of a helper program with its arguments. *)
Definition call := (str * list str)%type.

(** [os.path.basename] *)
Definition basename (path : str) : str := last (split_on "/"%char path) [].

(** RAW._create_file, raw.py:85-120, when there are files (raw.py:95-97 otherwise
    creates an empty disk): the helper calls in order.  [files] are paths with
    their sizes; [capacity] may be [None] or empty. *)
Definition create_raw (path : str) (files : list (str * Z)) (capacity : option str) : list call :=
  let capacity :=
    match capacity with
    | Some (c :: s) => c :: s
    | _ => zdec (capacity_mib (sum (map snd files))) ++ L "M"
    end in
  (L "fatdisk", [path; L "format"; L "size"; capacity; L "fat32"]) ::
  map (fun f => (L "fatdisk", [path; L "fileadd"; fst f; basename (fst f)])) files.

(** ** inject-config *)

(** A directory tree: a file has a size, unless it cannot be read. *)
Inductive node : Type :=
| NFile (size : option Z)
| NDir (entries : list (str * node)).

(** The sizes found by [os.walk], top down: the files of a directory, then its
    subdirectories.  directory_size, utilities.py:85-92 *)
Fixpoint walk_sizes (n : node) : list (option Z) :=
  match n with
  | NFile _ => []
  | NDir entries =>
      flat_map (fun e => match snd e with NFile s => [s] | NDir _ => [] end) entries ++
      flat_map (fun e => walk_sizes (snd e)) entries
  end.
Definition directory_size (n : node) : Z :=
  sum (flat_map (fun s => match s with Some z => [z] | None => [] end) (walk_sizes n)).

(** The size counted for an extra file, inject_config.py:149-153 *)
Definition extra_size (n : node) : Z :=
  match n with
  | NDir _ => directory_size n
  | NFile (Some z) => z
  | NFile None => 0          (* getsize raises; extra files are known to exist *)
  end.

(** working_dir_disk_space_required, inject_config.py:133-166: the size of the
    configuration files and of the extra files; [cdrom] is the test of
    BOOTSTRAP_DISK_TYPE. *)
Definition inject_space_required (base : Z) (config secondary : option Z) (extra : list node)
                                 (cdrom : bool) : Z :=
  let size o := match o with Some z => z | None => 0 end in
  let extra_required := size config + size secondary + sum (map extra_size extra) in
  let extra_required :=
    if cdrom then extra_required
    else extra_required + (8 * 2 ^ 20 - extra_required) mod (8 * 2 ^ 20) in
  base + extra_required.
