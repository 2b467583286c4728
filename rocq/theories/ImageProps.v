(** Property C51: how disk images are made and converted. *)
From Coq Require Import ZArith.
From Verif Require Import PyBase PyDict NetworkModel RawModel PathModel SelectModel DeploySpec DeployProofs ImageModel ImageSpec ImageProofs.
Local Open Scope Z_scope.

(** A disk image that is added to a package is left as it is if it is for a CD or is already a
    stream-optimized VMDK.  Otherwise the result is a stream-optimized VMDK of the same data,
    in the given directory under the same name; no other file is changed, and the raw image
    that vmdktool needs is gone again. *)
Theorem C51_convert : forall P i kind dir f j f', proper_name (i_path i) -> convert_if_needed P i kind dir f = (Ok j, f') ->
  ((kind <> L "harddisk" \/ stream_optimized i f) /\ j = i /\ f' = f) \/
  (kind = L "harddisk" /\ ~ stream_optimized i f /\ can_stream P i /\ exists stem d, file_stem (i_path i) stem /\ ~ dots stem /\
    let out := named dir stem (L ".vmdk") in let scratch := named dir stem (L ".img") in
    j = mkImg VMDK out /\ contains_data f (i_path i) d /\ has_image f' out (L "vmdk") (Some (L "streamOptimized")) d /\
    (needs_scratch P i -> i_path i <> scratch /\ absent f' scratch /\ only_touches [out; scratch] f f') /\
    (~ needs_scratch P i -> i_path i <> out /\ only_touches [out] f f')).
Proof. exact convert_if_needed_spec. Qed.
Print Assumptions C51_convert.

(** Whatever happens, only these files are touched. *)
Theorem C51_convert_any : forall P i kind dir f r f', proper_name (i_path i) -> convert_if_needed P i kind dir f = (r, f') ->
  r <> Err EOutOfFuel /\ exists stem, file_stem (i_path i) stem /\ ~ dots stem /\
    only_touches [named dir stem (L ".vmdk"); named dir stem (L ".img")] f f' /\
    (~ needs_scratch P i -> only_touches [named dir stem (L ".vmdk")] f f').
Proof. exact convert_if_needed_any. Qed.
Print Assumptions C51_convert_any.

(** It works whenever suitable programs are installed and do not fail: the conversion
    chooses among them well. *)
Theorem C51_convert_possible : forall P i dir f stem, reliable P -> faithful i f -> can_stream P i ->
  file_stem (i_path i) stem -> ~ dots stem ->
  i_path i <> named dir stem (L ".vmdk") -> i_path i <> named dir stem (L ".img") ->
  exists j f', convert_if_needed P i (L "harddisk") dir f = (Ok j, f').
Proof. exact convert_if_needed_possible. Qed.
Print Assumptions C51_convert_possible.

(** Conversions in general: the result has the format and sub-format asked for and the data
    of the original; only that file and the raw image of the same name are touched; the
    latter is gone if it was made on the way. *)
Theorem C51_convert_to : forall P i fmt dir sub f r f', proper_name (i_path i) -> convert_to P i fmt dir sub f = (r, f') ->
  r <> Err EOutOfFuel /\
  (forall c, fmt = disk_format c -> c <> ISO -> exists stem, file_stem (i_path i) stem /\ ~ dots stem /\
    let out := named dir stem (extension c) in let scratch := named dir stem (L ".img") in
    only_touches [out; scratch] f f' /\
    (forall j, r = Ok j -> j = mkImg c out /\ (only_touches [out] f f' \/ (i_path i <> scratch /\ absent f' scratch)) /\
      exists d, contains_data f (i_path i) d /\ has_image f' out fmt (match c with VMDK => sub | _ => None end) d /\ (c = VMDK -> sub <> None))) /\
  ((forall c, fmt = disk_format c -> c = ISO) -> r = Err ENotImplemented /\ f' = f).
Proof. exact convert_to_spec. Qed.
Print Assumptions C51_convert_to.

(** A new image is made only where there was no file, has the format and sub-format asked
    for, and contains exactly the files given, under their own names, or nothing on a disk of
    the capacity given. *)
Theorem C51_create : forall size P path fmt files capacity sub f r f',
  no_options (listed files) -> ~ In path (listed files) ->
  new_image size P path fmt files capacity sub f = (r, f') ->
  r <> Err EOutOfFuel /\ only_touches [path] f f' /\
  (forall j, r = Ok j -> exists c d, fmt = disk_format c /\ path <> [] /\ absent f path /\ (capacity <> None \/ files <> None) /\ j = mkImg c path /\
    can_create P c (listed files) capacity /\ new_content f (listed files) capacity d /\ has_image f' path fmt (new_subformat c sub (listed files)) d).
Proof. exact new_image_spec. Qed.
Print Assumptions C51_create.

Theorem C51_create_possible : forall size P path c files capacity sub f, reliable P -> path <> [] -> absent f path ->
  (capacity <> None \/ files <> None) -> can_create P c (listed files) capacity ->
  no_options (listed files) -> ~ In path (listed files) -> names_apart (listed files) -> (forall p, In p (listed files) -> ~ absent f p) ->
  exists f', new_image size P path (disk_format c) files capacity sub f = (Ok (mkImg c path), f').
Proof. exact new_image_possible. Qed.
Print Assumptions C51_create_possible.

(** An existing file is never replaced, and something has to be asked for. *)
Theorem C51_create_refused : forall size P path c files capacity sub f, path <> [] ->
  ~ absent f path \/ (capacity = None /\ files = None) -> new_image size P path (disk_format c) files capacity sub f = (Err ERuntimeError, f).
Proof. exact new_image_refused. Qed.
Print Assumptions C51_create_refused.

(** ** Examples and deviations *)

Definition tools (l : list (str * ver)) (junk : option disk) (fails : str -> bool) : programs :=
  mkPrograms (fun n => dget str_eqb n l) (fun n _ _ => fails n) (fun _ _ _ => junk).
Definition new_qemu : programs := tools [(L "qemu-img", (2, 5, 1))] None (fun _ => false).
Definition old_tools : programs := tools [(L "qemu-img", (2, 1, 0)); (L "vmdktool", (1, 4, 0)); (L "fatdisk", (1, 0, 0)); (L "xorriso", (1, 3, 2))] None (fun _ => false).
Definition content : data := Files [(L "ios.txt", Blob (L "hostname r1"))].
Definition source : drives := [(L "/in/disk.qcow2", mkDisk (L "qcow2") None content); (L "/out/notes", mkDisk (L "raw") None (Blob (L "x")))].
Definition q : img := mkImg QCOW2 (L "/in/disk.qcow2").

Lemma q_stem : file_stem (i_path q) (L "disk") /\ ~ dots (L "disk").
Proof. split; [exact (stem_spec (i_path q))|]. intros F. specialize (F "d"%char (or_introl eq_refl)). discriminate F. Qed.
Lemma q_proper : proper_name (i_path q).
Proof. exists (L "disk"). exact q_stem. Qed.
Example C51_convert_nonvacuous : proper_name (i_path q) /\ faithful q source /\ can_stream new_qemu q /\ can_stream old_tools q /\
  reliable new_qemu /\ reliable old_tools /\ needs_scratch old_tools q /\ ~ needs_scratch new_qemu q /\
  convert_if_needed new_qemu q (L "harddisk") (L "/out") source =
    (Ok (mkImg VMDK (L "/out/disk.vmdk")), source ++ [(L "/out/disk.vmdk", mkDisk (L "vmdk") (Some (L "streamOptimized")) content)]) /\
  convert_if_needed old_tools q (L "harddisk") (L "/out") source =
    (Ok (mkImg VMDK (L "/out/disk.vmdk")), source ++ [(L "/out/disk.vmdk", mkDisk (L "vmdk") (Some (L "streamOptimized")) content)]) /\
  convert_to old_tools q (L "raw") (L "/out") None source =
    (Ok (mkImg RAW (L "/out/disk.img")), source ++ [(L "/out/disk.img", mkDisk (L "raw") None content)]) /\
  convert_to old_tools q (L "iso") (L "/out") None source = (Err ENotImplemented, source).
Proof.
  split; [exact q_proper|]. split; [eexists; split; [vm_compute; reflexivity|]; split; [reflexivity|discriminate]|].
  split; [left; eexists; split; vm_compute; reflexivity|]. split; [left; eexists; split; vm_compute; reflexivity|].
  split; [intros n a x; reflexivity|]. split; [intros n a x; reflexivity|].
  split; [split; [|split; [eexists; vm_compute; reflexivity|discriminate]]|].
  { intros (w & E & A). vm_compute in E. injection E as <-. vm_compute in A. discriminate A. }
  split; [intros (F & _); apply F; eexists; split; vm_compute; reflexivity|].
  split; [vm_compute; reflexivity|]. split; [vm_compute; reflexivity|]. split; vm_compute; reflexivity.
Qed.

Definition any_size (d : data) : Z := match d with Blob s => Z.of_nat (length s) | _ => 1048576 end.
Example C51_create_nonvacuous :
  new_image any_size old_tools (L "/out/c.img") (L "raw") (Some [L "/out/notes"]) None None source =
    (Ok (mkImg RAW (L "/out/c.img")), source ++ [(L "/out/c.img", mkDisk (L "raw") None (Files [(L "notes", Blob (L "x"))]))]) /\
  new_image any_size old_tools (L "/out/c.iso") (L "iso") (Some [L "/out/notes"]) None None source =
    (Ok (mkImg ISO (L "/out/c.iso")), source ++ [(L "/out/c.iso", mkDisk (L "iso") (Some (L "rockridge")) (Files [(L "notes", Blob (L "x"))]))]) /\
  new_image any_size old_tools (L "/out/c.vmdk") (L "vmdk") None (Some (L "8G")) None source =
    (Ok (mkImg VMDK (L "/out/c.vmdk")), source ++ [(L "/out/c.vmdk", mkDisk (L "vmdk") (Some (L "streamOptimized")) (Blank (L "8G")))]) /\
  new_image any_size old_tools (L "/out/notes") (L "vmdk") None (Some (L "8G")) None source = (Err ERuntimeError, source) /\
  can_create old_tools RAW [L "/out/notes"] None /\ no_options [L "/out/notes"] /\ names_apart [L "/out/notes"] /\ ~ absent source (L "/out/notes").
Proof.
  split; [vm_compute; reflexivity|]. split; [vm_compute; reflexivity|]. split; [vm_compute; reflexivity|]. split; [vm_compute; reflexivity|].
  split; [eexists; vm_compute; reflexivity|]. split; [intros p t [<-|[]] F; discriminate F|].
  split; [split; [repeat constructor; intros []|]; intros p r n [<-|[]] [<-|[]] _ _; reflexivity|]. vm_compute. discriminate.
Qed.

(** "Converting an image touches no file but the result": a raw image of the user that
    happens to have the same name in the directory is overwritten and removed when vmdktool
    is used. *)
Theorem C51_convert_own_file_refuted : exists P i dir f j f' mine, reliable P /\ faithful i f /\ proper_name (i_path i) /\
  dget str_eqb mine f <> None /\ mine <> i_path i /\ mine <> i_path j /\
  convert_if_needed P i (L "harddisk") dir f = (Ok j, f') /\ dget str_eqb mine f' = None.
Proof.
  exists old_tools, q, (L "/out"), (source ++ [(L "/out/disk.img", mkDisk (L "raw") None (Blob (L "mine")))]), (mkImg VMDK (L "/out/disk.vmdk")).
  eexists _, (L "/out/disk.img"). split; [intros n a x; reflexivity|]. split; [eexists; split; [vm_compute; reflexivity|]; split; [reflexivity|discriminate]|].
  split; [exact q_proper|]. split; [vm_compute; discriminate|]. split; [discriminate|]. split; [discriminate|]. split; vm_compute; reflexivity.
Qed.
Print Assumptions C51_convert_own_file_refuted.

(** "The original stays": a VMDK of another sub-format in the directory itself is replaced by
    its conversion when vmdktool is used (and is an error otherwise). *)
Theorem C51_convert_replaces_refuted : exists P i dir f f', reliable P /\ faithful i f /\ proper_name (i_path i) /\
  convert_if_needed P i (L "harddisk") dir f = (Ok i, f') /\ dget str_eqb (i_path i) f' <> dget str_eqb (i_path i) f.
Proof.
  exists old_tools, (mkImg VMDK (L "/out/disk.vmdk")), (L "/out"), [(L "/out/disk.vmdk", mkDisk (L "vmdk") (Some (L "monolithicSparse")) content)]. eexists.
  split; [intros n a x; reflexivity|]. split; [eexists; split; [vm_compute; reflexivity|]; split; [reflexivity|intros _; discriminate]|].
  split. { exists (L "disk"). split; [exact (stem_spec (L "/out/disk.vmdk"))|]. intros F. specialize (F "d"%char (or_introl eq_refl)). discriminate F. }
  split; [vm_compute; reflexivity|]. vm_compute. discriminate.
Qed.
Print Assumptions C51_convert_replaces_refuted.

(** "A failed conversion leaves no scratch file": if the conversion to raw fails half-way, what
    was written of it stays. *)
Theorem C51_convert_leftover_refuted : exists P i dir f e f' scratch, faithful i f /\ proper_name (i_path i) /\
  convert_if_needed P i (L "harddisk") dir f = (Err e, f') /\ dget str_eqb scratch f = None /\ dget str_eqb scratch f' <> None.
Proof.
  exists (tools [(L "qemu-img", (2, 1, 0)); (L "vmdktool", (1, 4, 0))] (Some (mkDisk (L "raw") None (Blob (L "half")))) (fun n => str_eqb n (L "qemu-img"))),
    q, (L "/out"), source, EHelperError. eexists _, (L "/out/disk.img").
  split; [eexists; split; [vm_compute; reflexivity|]; split; [reflexivity|discriminate]|]. split; [exact q_proper|].
  split; [vm_compute; reflexivity|]. split; [vm_compute; reflexivity|]. vm_compute. discriminate.
Qed.
Print Assumptions C51_convert_leftover_refuted.

(** "A failed conversion reports the error of the program": converting a stream-optimized VMDK
    to QCOW2 with vmdktool reports an undefined variable instead. *)
Theorem C51_convert_error_refuted : exists P i dir f f' f'', faithful i f /\ proper_name (i_path i) /\
  to_raw P i dir f = (Err EHelperError, f'') /\ convert_to P i (L "qcow2") dir None f = (Err ENameError, f').
Proof.
  exists (tools [(L "vmdktool", (1, 4, 0))] None (fun _ => true)), (mkImg VMDK (L "/in/disk.vmdk")), (L "/out"),
    [(L "/in/disk.vmdk", mkDisk (L "vmdk") (Some (L "streamOptimized")) content)]. eexists _, _.
  split; [eexists; split; [vm_compute; reflexivity|]; split; [reflexivity|intros _; discriminate]|].
  split. { exists (L "disk"). split; [exact (stem_spec (L "/in/disk.vmdk"))|]. intros F. specialize (F "d"%char (or_introl eq_refl)). discriminate F. }
  split; vm_compute; reflexivity.
Qed.
Print Assumptions C51_convert_error_refuted.

(** "Without a sub-format the usual one is used": asking an image for its conversion to VMDK
    without naming a sub-format can never succeed. *)
Theorem C51_convert_default_refuted : forall P i dir f j f', proper_name (i_path i) -> convert_to P i (L "vmdk") dir None f <> (Ok j, f').
Proof.
  intros P i dir f j f' PN H. destruct (C51_convert_to _ _ _ _ _ _ _ _ PN H) as (_ & O & _).
  destruct (O VMDK eq_refl) as (stem & _ & _ & _ & K); [discriminate|]. destruct (K j eq_refl) as (_ & _ & d & _ & _ & N). now apply N.
Qed.
Print Assumptions C51_convert_default_refuted.

(** "A missing program is reported": without qemu-img a new VMDK is a TypeError; and so is an
    empty list of files without a capacity. *)
Theorem C51_create_error_refuted : exists P1 P2 path f,
  new_image any_size P1 path (L "vmdk") None (Some (L "8G")) None f = (Err ETypeError, f) /\
  new_image any_size P2 path (L "raw") (Some []) None None f = (Err ETypeError, f).
Proof. exists (tools [] None (fun _ => false)), old_tools, (L "/out/c.vmdk"), source. split; vm_compute; reflexivity. Qed.
Print Assumptions C51_create_error_refuted.
