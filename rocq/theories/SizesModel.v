(** Model of the size prediction: COT/utilities.py:163-188 and
    COT/vm_description/ovf/ovf.py:763-808. *)
From Verif Require Import PyBase.
Open Scope Z_scope.

(** tar_entry_size, COT/utilities.py:163-188 *)
Definition tar_entry_size (filesize : Z) : Z :=
  512 + filesize + ((512 - filesize) mod 512).

(** OVF.checksum_algorithm, ovf.py:420-426: "sha256" from OVF 2.0 on, else
    "sha1".  [v2] stands for [self.ovf_version >= 2.0]. *)
Definition checksum_algorithm (v2 : bool) : str :=
  if v2 then L "sha256" else L "sha1".

(** Per-file part of the loop, ovf.py:784-796: (manifest_size, needed) *)
Definition predict_file (v2 : bool) (acc : Z * Z) (f : str * Z) : Z * Z :=
  let '(manifest_size, needed) := acc in
  let '(href, size) := f in
  ((if v2 then manifest_size + (76 + Z.of_nat (length href))
    else manifest_size + (50 + Z.of_nat (length href))),
   needed + tar_entry_size size).

(** OVF.predicted_output_size, ovf.py:763-808.  [descriptor_size] stands for
    [len(ET.tostring(self.root))]; [files] for the items of
    [self.file_references] as (href, size). *)
Definition predicted_output_size (v2 : bool) (descriptor_size : Z)
  (files : list (str * Z)) : Z :=
  let '(manifest_size, needed) :=
    fold_left (predict_file v2) files (0, tar_entry_size descriptor_size) in
  let needed := needed + tar_entry_size manifest_size in
  let needed := needed + 1024 in
  needed + ((10240 - needed) mod 10240).
