(** What a TAR archive occupies, independent of COT. *)
From Verif Require Import PyBase.
Open Scope Z_scope.

(** [r] is [n] rounded up to a multiple of [m]. *)
Definition rounded_up (m n r : Z) : Prop := (m | r) /\ n <= r < n + m.

(** An entry is a 512-byte header and the data in whole 512-byte blocks. *)
Definition tar_entry (n e : Z) : Prop := exists d, rounded_up 512 n d /\ e = 512 + d.

(** An archive is its entries and two empty blocks, in whole 10 KiB records. *)
Definition tar_archive (sizes : list Z) (total : Z) : Prop :=
  exists es, Forall2 tar_entry sizes es /\
    rounded_up 10240 (fold_right Z.add 0 es + 1024) total.
