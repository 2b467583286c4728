(** Independent vocabulary for bootstrap disk sizes. *)
From Verif Require Import PyBase RawModel.
Local Open Scope Z_scope.

Definition MiB : Z := 1048576.

(** [file_at n path s]: following [path] from [n] leads to a readable file of size [s]. *)
Inductive file_at : node -> list str -> Z -> Prop :=
| at_file s : file_at (NFile (Some s)) [] s
| at_dir l name n path s : In (name, n) l -> file_at n path s -> file_at (NDir l) (name :: path) s.

(** The names in a directory are different. *)
Inductive proper : node -> Prop :=
| proper_file s : proper (NFile s)
| proper_dir l : NoDup (map fst l) -> (forall name n, In (name, n) l -> proper n) -> proper (NDir l).

(** [total] is the sum of the sizes of the files with these paths. *)
Fixpoint total_size (files : list (list str * Z)) : Z :=
  match files with [] => 0 | f :: l => snd f + total_size l end.

(** The least multiple of 8 MiB that is not less. *)
Definition rounded_up (n r : Z) : Prop :=
  (8 * MiB | r) /\ n <= r /\ forall r', (8 * MiB | r') -> n <= r' -> r <= r'.
