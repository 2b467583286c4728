(** What users of edit-hardware rely on: whoever opens the package that was written finds the
    hardware they asked for, and all else as it was.  What the options ask for is in EditHwSpec. *)
From Coq Require Import List Ascii ZArith.
Import ListNotations.
From Verif Require Import PyBase PyDict XmlModel XmlSpec NamesModel ItemModel ItemSpec HardwareModel HardwareSpec CountSpec FindSpec RereadSpec ProfileModel ProfileSpec NetworkModel DriveModel EditPropModel RefreshModel PlatformModel ManifestSpec PathSpec TarModel
  OvfWriteSpec OpenModel OpenSpec SaveModel SaveSpec EditHwModel EditHwSpec CommandModel CommandSpec CommandHwModel.

(** The devices of the type have the same InstanceIDs and report the same values. *)
Definition alike_of_type (E : env) (w : str) (h h2 : hw) : Prop :=
  (forall k i, In (k, i) h -> is_of w i -> exists j, In (k, j) h2 /\ is_of w j /\ same_reports E i j) /\
  (forall k j, In (k, j) h2 -> is_of w j -> exists i, In (k, i) h /\ is_of w i /\ same_reports E i j).

(** Under profile [q] there are the same devices, reporting the same values. *)
Definition alike_under (E : env) (q : str) (m m2 : vm) : Prop :=
  (forall k i, In (k, i) (devices_of m) -> present (henv E m) i (Some q) -> exists j, In (k, j) (devices_of m2) /\
     present (henv E m2) j (Some q) /\ forall n, reports E j n (Some q) = reports E i n (Some q)) /\
  (forall k j, In (k, j) (devices_of m2) -> present (henv E m2) j (Some q) -> exists i, In (k, i) (devices_of m) /\
     present (henv E m) i (Some q)).

(** What is in the hardware section besides Items and the System element *)
Definition beside_system (v : version) (sec : elem) : list elem :=
  filter (fun e => negb (str_eqb (etag e) (SYSTEM v))) (other_children v sec).

(** All that edit-hardware has nothing to do with is the same in both packages, whose files are
    in [w] and [w2]. *)
Record same_beside (w w2 : world) (o o2 : ovf) : Prop := {
  sb_version : o_version o2 = o_version o;
  sb_platform : o_platform o2 = o_platform o;
  sb_product : same_section (o_product o) (o_product o2);
  sb_annotation : same_section (o_annotation o) (o_annotation o2);
  sb_disks : forall k, k <> DISK_CAPACITY (o_version o) -> k <> DISK_CAP_UNITS (o_version o) ->
    column (DISK (o_version o)) k (o_disks o2) = column (DISK (o_version o)) k (o_disks o);
  sb_references : forall k, k <> FILE_SIZE (o_version o) ->
    column (FILE (o_version o)) k (Some (o_references o2)) = column (FILE (o_version o)) k (Some (o_references o));
  sb_files : forall h data, (exists r2, In (h, r2) (o_files o2) /\ content w2 r2 = Some data) <->
    (exists r, In (h, r) (o_files o) /\ content w r = Some data);
  sb_section : same_rest (beside_system (o_version o)) (o_hardware_section o) (o_hardware_section o2);
  sb_envelope : same_rest (beyond (envelope_sections (o_version o))) (o_envelope o) (o_envelope o2);
  sb_system : same_rest (beyond (system_sections (o_version o))) (o_system o) (o_system o2);
  sb_complaints : o_complaints o2 = [] }.

(** The element with the system types has no elements in it. *)
Definition plain_types (E : env) (o : ovf) : Prop :=
  forall sys e, In sys (findall (SYSTEM (o_version o)) (o_hardware_section o)) -> In e (findall (VIRTUAL_SYSTEM_TYPE (env_of E o)) sys) -> echildren e = [].

(** edit-hardware was run with the settings [s] on the package [input], which is [o], in the
    directory [wd] of the world [w], and left the world [w'].  The edited package could be written
    (its devices have values that fit into a document, C16, C66) and its XML was read back as
    printed (C68). *)
Record hw_run (E : env) (digest : str -> str -> str) (print : elem -> str) (parse : str -> option elem) (capacity : str -> result str) (fuel : nat)
    (U : user) (P : platform -> hw_platform) (s : settings) (w w' : world) (d : list str) (u input : str) (same : bool) (output : str) (o : ovf) : Prop := {
  hr_images : images_measured capacity;
  hr_digests : forall a x, hex_digest (digest a x);
  hr_directory : forall c, In c (d ++ [u]) -> proper c;
  hr_tags : forall t r, parse t = Some r -> ~ In NL (etag r);
  hr_opened : factory E digest parse w (path_of (d ++ [u])) input output = Ok o;
  hr_written : forall o1, edit_hardware_package E U P s o = Ok o1 ->
    can_be_written E (after_opening w (path_of (d ++ [u])) input) (path_of (d ++ [u])) (destination input output) o1 /\
    read_as_printed E print parse capacity fuel (after_opening w (path_of (d ++ [u])) input) o1 /\ plain_types E o1;
  hr_command : command E digest print parse capacity fuel (edit_hardware_package E U P s) w (path_of (d ++ [u])) input same output = (w', Ok tt) }.
