(** What users rely on about the output of [cot info]. *)
From Coq Require Import List Ascii ZArith QArith.
Import ListNotations.
From Verif Require ProfileSpec.
From Verif Require Import PyBase PyDict NamesModel XmlModel ItemModel ItemSpec HardwareModel CountSpec FindSpec ValidateHwSpec
  UnitsModel PrettyModel NetworkModel ProfileModel DriveModel EnvPropModel ProductModel.
Local Open Scope nat_scope.

(** ** Tables *)

(** a text filled up with blanks to [w] characters, on the right or on the left *)
Definition to_left (w : nat) (s : str) : str := s ++ repeat " "%char (w - length s).
Definition to_right (w : nat) (s : str) : str := repeat " "%char (w - length s) ++ s.
(** cells with one blank between them *)
Definition row_of (cells : list str) : str := join (L " ") cells.
Definition name_or_none (o : option str) : str := match o with Some s => s | None => L "None" end.

(** [t] is the readable form of [n] bytes (see C40) *)
Definition human (n : Z) (t : str) : Prop := pretty_bytes (inject_Z (round53 n)) 0 = Ok t.

(** ** Disks *)

(** the capacity that a Disk element states *)
Definition capacity (v : version) (disk : elem) (c : Z) : Prop :=
  exists s n, get_attr disk (DISK_CAPACITY v) = Some s /\ py_int s = Some n /\
    programmatic_bytes_to_int (zdec n) (match get_attr disk (DISK_CAP_UNITS v) with Some u => u | None => L "byte" end) = Ok c.
Definition sum (l : list Z) : Z := fold_right Z.add 0%Z l.
(** the elements with a tag directly below *)
Definition below (tag : str) (e : elem) : list elem := filter (fun x => str_eqb (etag x) tag) (echildren e).
Definition total_capacity (v : version) (disks : option elem) (c : Z) : Prop :=
  match disks with
  | None => c = 0%Z
  | Some sec => exists cs, Forall2 (capacity v) (below (DISK v) sec) cs /\ c = sum cs
  end.

(** ** Profiles *)

Definition shown_cpus (E : env) (h : hw) (p : profile) (s : str) : Prop :=
  (s = L "0" /\ forall k i, ~ device E h "cpu" p k i)
  \/ (exists k i, device E h "cpu" p k i /\ quantity E i p s /\ at_most_one E h "cpu" p).
Definition memory_bytes (E : env) (h : hw) (p : profile) (b : Z) : Prop :=
  (b = 0%Z /\ forall k i, ~ device E h "memory" p k i)
  \/ (exists k i s u, device E h "memory" p k i /\ at_most_one E h "memory" p
        /\ quantity E i p s /\ units E i p u /\ programmatic_bytes_to_int s u = Ok b).
Definition number_of (E : env) (h : hw) (rt : string) (p : profile) (n : nat) : Prop :=
  exists ks, NoDup ks /\ (forall k, In k ks <-> exists i, device E h rt p k i) /\ length ks = n.

(** the first cell of the row of profile [p] *)
Definition profile_cell (default : bool) (p : option str) : str :=
  L "  " ++ name_or_none p ++ (if default then L " (default)" else []).
Definition first_of (ids : list (option str)) : option str := match ids with p :: _ => p | [] => None end.
(** the row of profile [p] when the first column is [w] wide *)
Inductive profile_shown (E : env) (h : hw) (disks : option elem) (w : nat) (default : bool) (p : profile) : str -> Prop :=
  | Profile_shown cpus bytes memory nics serials drives size capacity :
      shown_cpus E h p cpus ->
      memory_bytes E h p bytes -> human bytes memory ->
      number_of E h "ethernet" p nics ->
      number_of E h "serial" p serials ->
      number_of E h "harddisk" p drives ->
      total_capacity (e_ver E) disks size -> human size capacity ->
      profile_shown E h disks w default p
        (row_of [to_left w (profile_cell default p);
                 to_right 4 cpus; to_right 9 memory; to_right 4 (dec (N.of_nat nics)); to_right 7 (dec (N.of_nat serials));
                 to_right 14 (to_right 2 (dec (N.of_nat drives)) ++ L " / " ++ to_right 9 capacity)]).

(** the profiles of the package in the order of the table; without any, a nameless one *)
Definition in_table (ids : list (option str)) : list (option str) := match ids with [] => [None] | _ => ids end.
(** the profiles shown, for the section in which they are declared, if any *)
Definition table_of (v : version) (deploy : option elem) : list (option str) :=
  in_table (match deploy with Some sec => ProfileSpec.listed v (below (CONFIG v) sec) | None => [] end).
(** the two lines that describe a profile, before they are wrapped *)
Definition described_as (what : string) (text : option str) : str :=
  to_left 15 (L what) ++ L " """ ++ name_or_none text ++ L """".
