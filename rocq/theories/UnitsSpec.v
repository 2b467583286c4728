(** Specification vocabulary for byte counts. *)
From Verif Require Import PyBase.
Open Scope Z_scope.

(** [q] is exactly representable as an IEEE double: at most 53 significant
    bits and below 2^1024. *)
Definition double_exact (q : Z) : Prop :=
  exists m e, 0 <= e /\ Z.abs m < 2 ^ 53 /\ q = m * 2 ^ e /\ Z.abs q < 2 ^ 1024.
