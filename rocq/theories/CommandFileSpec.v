(** What users of add-file, add-disk and remove-file rely on: whoever opens the package that was
    written finds the file and the drive they asked for, or no longer finds them, and all else as
    it was.  What it means that a package is in order is in DriveSpec. *)
From Coq Require Import List Ascii ZArith.
Import ListNotations.
From Verif Require Import PyBase PyDict XmlModel XmlSpec NamesModel ItemModel ItemSpec HardwareModel HardwareSpec CountSpec RereadSpec ProfileSpec NetworkModel NetworkSpec DriveModel DriveSpec RefreshModel PlatformModel ManifestSpec PathSpec TarModel
  OvfWriteSpec OpenModel OpenSpec SaveModel SaveSpec CommandModel CommandSpec.

(** A command that changes a package with [edit] was run on the package [input], which is [o], in
    the directory of the parts [d] and [u], in the world [w], and left the world [w'].  The changed
    package could be written (its devices have values that fit into a document, its files are
    there, C16, C47, C65, C66) and its XML was read back as printed (C68). *)
Record package_run (E : env) (digest : str -> str -> str) (print : elem -> str) (parse : str -> option elem) (capacity : str -> result str) (fuel : nat)
    (edit : ovf -> result ovf) (w w' : world) (d : list str) (u input : str) (same : bool) (output : str) (o : ovf) : Prop := {
  pr_images : images_measured capacity;
  pr_digests : forall a x, hex_digest (digest a x);
  pr_directory : forall c, In c (d ++ [u]) -> proper c;
  pr_tags : forall t r, parse t = Some r -> ~ In NL (etag r);
  pr_opened : factory E digest parse w (path_of (d ++ [u])) input output = Ok o;
  pr_written : forall o1, edit o = Ok o1 ->
    can_be_written E (after_opening w (path_of (d ++ [u])) input) (path_of (d ++ [u])) (destination input output) o1 /\
    read_as_printed E print parse capacity fuel (after_opening w (path_of (d ++ [u])) input) o1;
  pr_command : command E digest print parse capacity fuel edit w (path_of (d ++ [u])) input same output = (w', Ok tt) }.

(** The package has a file with this name and this content. *)
Definition stored (w : world) (o : ovf) (name data : str) : Prop := exists r, In (name, r) (o_files o) /\ content w r = Some data.
(** The same attributes, but for those named *)
Definition alike_but (ks : list str) (a b : elem) : Prop := forall k, ~ In k ks -> get_attr b k = get_attr a k.
(** The same Files in the same order (their sizes are measured again, C61), and the same Disks
    (their capacities are) *)
Definition same_files (v : version) : list elem -> list elem -> Prop := Forall2 (alike_but [FILE_SIZE v]).
Definition same_disks (v : version) : list elem -> list elem -> Prop := Forall2 (alike_but [DISK_CAPACITY v; DISK_CAP_UNITS v]).
(** The device is there and reports the same values. *)
Definition kept_in (E : env) (h2 : hw) (k : str) (i : item) : Prop := exists j, In (k, j) h2 /\ same_reports E i j.

(** All that these commands have nothing to do with is the same in both packages.  [h] is the
    hardware that was written; unused networks are dropped (C23). *)
Record rest_same (E : env) (h : hw) (o o2 : ovf) : Prop := {
  rs_version : o_version o2 = o_version o;
  rs_profiles : o_profiles o2 = o_profiles o;
  rs_platform : o_platform o2 = o_platform o;
  rs_product : same_section (o_product o) (o_product o2);
  rs_annotation : same_section (o_annotation o) (o_annotation o2);
  rs_deploy : same_section (o_deploy o) (o_deploy o2);
  rs_networks : exists sec, update_xml (env_of E o) h (o_hardware_section o) = Ok sec /\
    forall n, In n (column (NETWORK (o_version o)) (NETWORK_NAME (o_version o)) (o_networks o2)) <->
      In n (column (NETWORK (o_version o)) (NETWORK_NAME (o_version o)) (o_networks o)) /\ in_use (o_version o) sec n;
  rs_section : same_rest (other_children (o_version o)) (o_hardware_section o) (o_hardware_section o2);
  rs_envelope : same_rest (beyond (envelope_sections (o_version o))) (o_envelope o) (o_envelope o2);
  rs_system : same_rest (beyond (system_sections (o_version o))) (o_system o) (o_system o2);
  rs_complaints : o_complaints o2 = [] }.
(** The hardware that was written is what is found. *)
Definition written_hardware (E : env) (o o2 : ovf) (h : hw) : Prop := same_hardware (env_of E o) h (o_hardware o2) /\ rest_same E h o o2.
