(** Independent vocabulary for disk space checks. *)
From Verif Require Import PyBase SpaceModel.
Local Open Scope Z_scope.

(** The directory that is checked: the deepest existing directory on the path. *)
Definition is_prefix (a b : path) : Prop := exists t, b = a ++ t.
Definition checked_dir (k : check) (d : path) : Prop :=
  is_prefix d (k_location k) /\ (d = [] \/ k_isdir k d = true) /\
  forall d', is_prefix d' (k_location k) -> d' <> [] -> k_isdir k d' = true -> (length d' <= length d)%nat.

(** A check measures the space unless an earlier measurement was for at least as
    much and the check is not forced. *)
Definition measures (k : check) (last : option (Z * Z)) : Prop :=
  k_force k = true \/ match last with None => True | Some (r, _) => r < k_required k end.

(** [standing h d last]: after the checks [h], the last measurement in directory [d]
    found [a] bytes available where [r] were required, for [last = Some (r, a)]. *)
Inductive standing : list check -> path -> option (Z * Z) -> Prop :=
| st_none d : standing [] d None
| st_other h k d d' last : standing h d last -> checked_dir k d' -> d' <> d -> standing (h ++ [k]) d last
| st_kept h k d last : standing h d last -> checked_dir k d -> ~ measures k last -> standing (h ++ [k]) d last
| st_measured h k d last : standing h d last -> checked_dir k d -> measures k last ->
    standing (h ++ [k]) d (Some (k_required k, k_available k d)).
