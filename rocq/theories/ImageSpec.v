(** What users rely on when disk images are made, converted and looked into. *)
From Coq Require Import ZArith.
From Verif Require Import PyBase PyDict PathModel SelectModel DeploySpec ImageModel.
Local Open Scope Z_scope.

(** ** Files *)

(** All files but these are what they were. *)
Definition only_touches (paths : list str) (f f' : drives) : Prop :=
  forall p, ~ In p paths -> dget str_eqb p f' = dget str_eqb p f.
(** The file is an image of this format, sub-format and content. *)
Definition has_image (f : drives) (path fmt : str) (sub : option str) (d : data) : Prop :=
  dget str_eqb path f = Some (mkDisk fmt sub d).
Definition contains_data (f : drives) (path : str) (d : data) : Prop :=
  exists k, dget str_eqb path f = Some k /\ d_data k = d.
Definition absent (f : drives) (path : str) : Prop := dget str_eqb path f = None.

(** The file's name has something before its extension, and is not only dots. *)
Definition proper_name (path : str) : Prop := exists stem, file_stem path stem /\ ~ dots stem.
(** The file of this stem with another extension in the directory. *)
Definition named (dir stem ext : str) : str := path_join dir (stem ++ ext).

(** The object says what the file is: its format, and a sub-format can be read from a VMDK. *)
Definition faithful (i : img) (f : drives) : Prop :=
  exists d, dget str_eqb (i_path i) f = Some d /\ d_format d = disk_format (i_class i) /\
    (i_class i = VMDK -> d_sub d <> None).
Definition stream_optimized (i : img) (f : drives) : Prop :=
  i_class i = VMDK /\ exists d, dget str_eqb (i_path i) f = Some d /\ d_sub d = Some (L "streamOptimized").

(** ** Programs *)

Definition there (P : programs) (name : str) : Prop := exists w, p_version P name = Some w.
Definition version_from (P : programs) (name : str) (v : ver) : Prop := exists w, p_version P name = Some w /\ at_least w v = true.
Definition reliable (P : programs) : Prop := forall name args f, p_fails P name args f = false.
(** Something that can write stream-optimized images of this one. *)
Definition can_stream (P : programs) (i : img) : Prop :=
  version_from P (L "qemu-img") (2, 1, 0) \/ (there P (L "vmdktool") /\ (i_class i = RAW \/ there P (L "qemu-img"))).
(** vmdktool is the better choice, and it needs a raw image first. *)
Definition needs_scratch (P : programs) (i : img) : Prop :=
  ~ version_from P (L "qemu-img") (2, 5, 1) /\ there P (L "vmdktool") /\ i_class i <> RAW.

(** ** New images *)

(** The files are in the image under their own names. *)
Definition own_name (path name : str) : Prop := exists dir, path = dir ++ name /\ (dir = [] \/ exists d, dir = d ++ L "/") /\ ~ In "/"%char name.
Definition holds_files (f : drives) (paths : list str) (d : data) : Prop :=
  exists l, d = Files l /\ Forall2 (fun p e => own_name p (fst e) /\ contains_data f p (snd e)) paths l.
(** No name would be taken for an option. *)
Definition no_options (files : list str) : Prop := forall p t, In p files -> p <> "-"%char :: t.
(** The sub-format that a new image gets: the one asked for, or else the usual one of the format. *)
Definition new_subformat (c : disk_class) (sub : option str) (files : list str) : option str :=
  match c with
  | QCOW2 => sub
  | VMDK => Some (match sub with Some s => s | None => L "streamOptimized" end)
  | ISO => Some (match sub with Some s => if str_eqb s (L "rockridge") then s else [] | None => L "rockridge" end)
  | RAW => match files with [] => sub | _ => None end
  end.
(** What goes into a new image: the files, or nothing on a disk of this capacity. *)
Definition new_content (f : drives) (files : list str) (capacity : option str) (d : data) : Prop :=
  match files with [] => exists cap, capacity = Some cap /\ d = Blank cap | _ => holds_files f files d end.
(** The program that is needed. *)
Definition can_create (P : programs) (c : disk_class) (files : list str) (capacity : option str) : Prop :=
  match c, files with
  | ISO, [] => False
  | ISO, _ => there P (L "mkisofs") \/ there P (L "genisoimage") \/ there P (L "xorriso")
  | RAW, _ :: _ => there P (L "fatdisk")
  | _, [] => there P (L "qemu-img") /\ capacity <> None
  | _, _ :: _ => False
  end.
(** No two of the files have the same name. *)
Definition names_apart (files : list str) : Prop :=
  NoDup files /\ forall p q n, In p files -> In q files -> own_name p n -> own_name q n -> p = q.
Definition listed (files : option (list str)) : list str := match files with Some l => l | None => [] end.
