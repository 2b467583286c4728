(** Property theorems C38: sizes of bootstrap disks. *)
From Coq Require Import Lia.
From Verif Require Import PyBase PyBaseProofs RawModel RawSpec RawProofs.
Local Open Scope Z_scope.

(** A disk made for given files (up to 8 PiB) is formatted with a capacity of whole
    MiB, more than 7 MiB and at most 8 MiB above the total of the file sizes, and
    then receives every file in order under its base name. *)
Theorem C38_capacity : forall path files, 0 <= sum (map snd files) <= 2 ^ 53 - 2 ^ 23 ->
  exists cap, create_raw path files None =
    (L "fatdisk", [path; L "format"; L "size"; zdec cap ++ L "M"; L "fat32"]) ::
    map (fun f => (L "fatdisk", [path; L "fileadd"; fst f; basename (fst f)])) files /\
    sum (map snd files) + 7 * MiB < cap * MiB <= sum (map snd files) + 8 * MiB.
Proof. exact create_raw_spec. Qed.
Print Assumptions C38_capacity.

(** A requested capacity is used as it is. *)
Theorem C38_requested : forall path files c s,
  create_raw path files (Some (c :: s)) =
    (L "fatdisk", [path; L "format"; L "size"; c :: s; L "fat32"]) ::
    map (fun f => (L "fatdisk", [path; L "fileadd"; fst f; basename (fst f)])) files.
Proof. exact create_raw_requested. Qed.
Print Assumptions C38_requested.

(** The capacity is not a multiple of 8 MiB, although the code's comments say so. *)
Theorem C38_multiple_refuted : exists total, 0 <= total /\ ~ (8 | capacity_mib total).
Proof. exists MiB. split; [unfold MiB; lia|]. change (capacity_mib MiB) with 9. intros [k E]. lia. Qed.
Print Assumptions C38_multiple_refuted.

(** The size of a directory is the total size of the readable files below it, each
    counted once. *)
Theorem C38_directory : forall l, proper (NDir l) -> exists files,
  NoDup (map fst files) /\ (forall path s, In (path, s) files <-> file_at (NDir l) path s) /\
  directory_size (NDir l) = total_size files.
Proof. exact directory_size_spec. Qed.
Print Assumptions C38_directory.

(** The space inject-config asks for, beyond that of the VM: the total of the files
    for a CD-ROM, and the next multiple of 8 MiB for a hard disk. *)
Theorem C38_estimate : forall base config secondary extra cdrom,
  let total := match config with Some z => z | None => 0 end +
               match secondary with Some z => z | None => 0 end + sum (map extra_size extra) in
  exists r, inject_space_required base config secondary extra cdrom = base + r /\
    if cdrom then r = total else rounded_up total r.
Proof. exact inject_space_spec. Qed.
Print Assumptions C38_estimate.

(** The disk is never more than 8 MiB larger than the estimate ... *)
Theorem C38_estimate_gap : forall total r, 0 <= total <= 2 ^ 53 - 2 ^ 23 -> rounded_up total r ->
  capacity_mib total * MiB <= r + 8 * MiB.
Proof. exact estimate_gap. Qed.
Print Assumptions C38_estimate_gap.

(** ... but it is always larger than the estimate, unless the estimate exceeds the
    files by more than 7 MiB: the estimate does not cover the disk. *)
Theorem C38_covers_refuted : exists total, 0 <= total <= 2 ^ 53 - 2 ^ 23 /\
  forall r, rounded_up total r -> r < capacity_mib total * MiB.
Proof.
  exists (8 * MiB). split; [unfold MiB; lia|]. intros r (D & H1 & H2).
  specialize (H2 (8 * MiB) (Z.divide_refl _) (Z.le_refl _)). change (capacity_mib (8 * MiB)) with 16. unfold MiB in *. lia.
Qed.
Print Assumptions C38_covers_refuted.

(** Non-vacuity: one file of 1.5 MB, and a tree with a nested and an unreadable file. *)
Example C38_capacity_case :
  create_raw (L "config.img") [(L "/w/ios_config.txt", 1500000)] None =
  [(L "fatdisk", [L "config.img"; L "format"; L "size"; L "9M"; L "fat32"]);
   (L "fatdisk", [L "config.img"; L "fileadd"; L "/w/ios_config.txt"; L "ios_config.txt"])].
Proof. vm_compute. reflexivity. Qed.
Definition sample_tree : list (str * node) :=
  [(L "a", NFile (Some 3)); (L "d", NDir [(L "a", NFile (Some 4)); (L "x", NFile None)]); (L "z", NFile (Some 5))].
Example C38_tree_case : proper (NDir sample_tree) /\ directory_size (NDir sample_tree) = 12.
Proof.
  split; [|reflexivity]. constructor.
  - repeat constructor; cbn; intuition discriminate.
  - intros name n H. repeat (destruct H as [H|H]; [injection H as <- <-|]); try destruct H; constructor.
    + repeat constructor; cbn; intuition discriminate.
    + intros name n H. repeat (destruct H as [H|H]; [injection H as <- <-|]); try destruct H; constructor.
Qed.
Example C38_estimate_case : inject_space_required 0 (Some 1500000) None [NDir sample_tree] false = 8 * MiB.
Proof. reflexivity. Qed.
