(** C01: TAR and package size prediction. *)
From Verif Require Import PyBase PyDict SizesModel SizesSpec ManifestModel SizesProofs.
From Coq Require Import Permutation.
Open Scope Z_scope.

(** The size of one TAR entry is exact. *)
Theorem C01_tar_entry_size_exact : forall n e, tar_entry n e <-> e = tar_entry_size n.
Proof. exact tar_entry_size_iff. Qed.
Print Assumptions C01_tar_entry_size_exact.

Example C01_entry_example : tar_entry 513 1536 /\ tar_entry_size 513 = 1536.
Proof.
  split; [|vm_compute; reflexivity]. exists 1024. split; [|reflexivity].
  split; [exists 2; reflexivity|split; vm_compute; congruence].
Qed.

(** The prediction is the exact size of an archive with the descriptor, the
    referenced files and a manifest of 76 (SHA256) or 50 (SHA1) bytes plus the
    name per referenced file. *)
Theorem C01_prediction_is_an_archive_size : forall (v2 : bool) descr files,
  tar_archive
    (descr ::
     fold_right Z.add 0
       (map (fun f : str * Z => (if v2 then 76 else 50) + Z.of_nat (length (fst f))) files)
     :: map snd files)
    (predicted_output_size v2 descr files).
Proof. exact predicted_is_archive. Qed.
Print Assumptions C01_prediction_is_an_archive_size.

(** The claim of C01 without restriction (the prediction is at least the size
    of the archive) is false: the manifest line of the descriptor itself is not
    counted. *)
Theorem C01_prediction_too_small_refuted : exists descr name sum text total,
  length sum = 40%nat /\
  generate_manifest (upper (checksum_algorithm false)) name sum [] [] = Ok text /\
  tar_archive [descr; Z.of_nat (length text)] total /\
  predicted_output_size false descr [] < total.
Proof. exact underestimate. Qed.
Print Assumptions C01_prediction_too_small_refuted.

(** The real archive exceeds the prediction by at most one 10 KiB record. *)
Theorem C01_prediction_within_one_record :
  forall (v2 : bool) descr name sum elems (refs : list (str * str)) files text total,
  Z.of_nat (length sum) = (if v2 then 64 else 40) ->
  (forall h s, dget str_eqb h refs = Some s -> Z.of_nat (length s) = (if v2 then 64 else 40)) ->
  Permutation elems (map fst files) ->
  Z.of_nat (length name) <= 10165 ->
  generate_manifest (upper (checksum_algorithm v2)) name sum elems refs = Ok text ->
  tar_archive (descr :: Z.of_nat (length text) :: map snd files) total ->
  total <= predicted_output_size v2 descr files + 10240.
Proof. exact real_within_one_record. Qed.
Print Assumptions C01_prediction_within_one_record.

(** Twice the prediction, the amount which COT makes sure is free before
    writing, always suffices. *)
Theorem C01_twice_the_prediction_suffices :
  forall (v2 : bool) descr name sum elems (refs : list (str * str)) files text total,
  0 <= descr -> Forall (fun f => 0 <= snd f) files ->
  Z.of_nat (length sum) = (if v2 then 64 else 40) ->
  (forall h s, dget str_eqb h refs = Some s -> Z.of_nat (length s) = (if v2 then 64 else 40)) ->
  Permutation elems (map fst files) ->
  Z.of_nat (length name) <= 10165 ->
  generate_manifest (upper (checksum_algorithm v2)) name sum elems refs = Ok text ->
  tar_archive (descr :: Z.of_nat (length text) :: map snd files) total ->
  total <= 2 * predicted_output_size v2 descr files.
Proof. exact real_within_twice. Qed.
Print Assumptions C01_twice_the_prediction_suffices.

(** The hypotheses are met by a package with two files. *)
Example C01_example :
  let refs := [(L "a.vmdk", repeat "0"%char 40); (L "b.iso", repeat "a"%char 40)] in
  let files := [(L "a.vmdk", 70000); (L "b.iso", 512)] in
  (exists text, generate_manifest (upper (checksum_algorithm false)) (L "x.ovf")
     (repeat "f"%char 40) [L "b.iso"; L "a.vmdk"] refs = Ok text /\ length text = 163%nat) /\
  Permutation [L "b.iso"; L "a.vmdk"] (map fst files) /\
  predicted_output_size false 9000 files = 92160.
Proof.
  cbv zeta. split; [|split].
  - eexists. split; vm_compute; reflexivity.
  - apply perm_swap.
  - vm_compute. reflexivity.
Qed.
