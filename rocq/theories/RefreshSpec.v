(** What users rely on when a package is written: its descriptor describes the files as they
    are. *)
From Coq Require Import List Ascii ZArith.
Import ListNotations.
From Verif Require Import PyBase XmlModel NamesModel DriveModel DriveSpec InfoSpec RefreshModel.

(** The same element, but for these attributes. *)
Definition same_but (ks : list str) (e e' : elem) : Prop :=
  etag e' = etag e /\ etext e' = etext e /\ etail e' = etail e /\ echildren e' = echildren e /\
  forall k, ~ In k ks -> get_attr e' k = get_attr e k.

(** The file [h], from [d], is part of the package and exists. *)
Definition is_there (W : world) (m : vmd) (h d : str) : Prop := In (h, d) (m_sources m) /\ w_exists W h d = true.

(** The children of the References element before and after: a File whose file is there has
    its size; the other Files are gone. *)
Inductive files_refreshed (v : version) (W : world) (m : vmd) : list elem -> list elem -> Prop :=
  | No_more : files_refreshed v W m [] []
  | Not_a_file x xs ys : etag x <> FILE v -> files_refreshed v W m xs ys -> files_refreshed v W m (x :: xs) (x :: ys)
  | File_there x x' xs ys h d z :
      etag x = FILE v -> get_attr x (FILE_HREF v) = Some h -> is_there W m h d -> w_size W h d = Ok z ->
      same_but [FILE_SIZE v] x x' -> get_attr x' (FILE_SIZE v) = Some (zdec z) ->
      files_refreshed v W m xs ys -> files_refreshed v W m (x :: xs) (x' :: ys)
  | File_gone x xs ys :
      etag x = FILE v -> (forall h d, get_attr x (FILE_HREF v) = Some h -> ~ is_there W m h d) ->
      files_refreshed v W m xs ys -> files_refreshed v W m (x :: xs) ys.

(** The Disk [x] is that of a file whose capacity can be looked up, being [c]. *)
Definition disk_image (v : version) (W : world) (m : vmd) (x : elem) (c : str) : Prop :=
  exists f id h d, In f (files v m) /\ get_attr f (FILE_ID v) = Some id /\ get_attr x (DISK_FILE_REF v) = Some id /\
    get_attr f (FILE_HREF v) = Some h /\ is_there W m h d /\ w_on_disk W h d = true /\ w_capacity W h d = Ok c.
(** A Disk before and after. *)
Inductive disk_refreshed (v : version) (W : world) (m : vmd) (x : elem) : elem -> Prop :=
  | Same : (etag x <> DISK v \/ (forall f id h d, In f (files v m) -> get_attr f (FILE_ID v) = Some id ->
              get_attr x (DISK_FILE_REF v) = Some id -> get_attr f (FILE_HREF v) = Some h -> is_there W m h d -> w_on_disk W h d = false)) ->
      disk_refreshed v W m x x
  | Measured x' c n : etag x = DISK v -> disk_image v W m x c -> py_int c = Some n ->
      same_but [DISK_CAPACITY v; DISK_CAP_UNITS v] x x' -> capacity v x' n ->
      disk_refreshed v W m x x'.

(** What qemu-img can report: a number of bytes below 2^63. *)
Definition measured (W : world) : Prop :=
  forall h d c, w_capacity W h d = Ok c -> exists n, py_int c = Some n /\ (0 <= n < 2 ^ 63)%Z.
(** In OVF 0.9 a capacity has no unit. *)
Definition plain_units (v : version) (m : vmd) : Prop :=
  v = V0 -> forall x, In x (disks v m) -> get_attr x (DISK_CAP_UNITS v) = None.
