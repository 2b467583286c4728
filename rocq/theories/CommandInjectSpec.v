(** What users of inject-config rely on: whoever opens the package that was written finds a disk
    with their configuration in the drive that the platform reads, and all else as it was. *)
From Coq Require Import List Ascii ZArith.
Import ListNotations.
From Verif Require Import PyBase PyDict XmlModel NamesModel ItemModel HardwareModel RawModel PathModel PlatformModel ManifestSpec PathSpec TarModel
  OpenModel SaveModel SaveSpec CommandModel CommandSpec CommandInjectModel.
From Verif Require InjectModel InjectSpec.

(** A command that changes a package and makes files, with [edit], was run on the package [input],
    which is [o], in the directory of the parts [d] and [u], in the world [w], and left the world
    [w'].  The changed package could be written (its devices have values that fit into a document,
    its files are there, C16, C47, C65, C66) and its XML was read back as printed (C68). *)
Record changing_run (E : env) (digest : str -> str -> str) (print : elem -> str) (parse : str -> option elem) (capacity : str -> result str) (fuel : nat)
    (edit : world -> ovf -> result (world * ovf)) (w w' : world) (d : list str) (u input : str) (same : bool) (output : str) (o : ovf) : Prop := {
  cr_images : images_measured capacity;
  cr_digests : forall a x, hex_digest (digest a x);
  cr_directory : forall c, In c (d ++ [u]) -> proper c;
  cr_tags : forall t r, parse t = Some r -> ~ In NL (etag r);
  cr_opened : factory E digest parse w (path_of (d ++ [u])) input output = Ok o;
  cr_written : forall w2 o1, edit (after_opening w (path_of (d ++ [u])) input) o = Ok (w2, o1) ->
    can_be_written E w2 (path_of (d ++ [u])) (destination input output) o1 /\
    read_as_printed E print parse capacity fuel w2 o1;
  cr_command : command_in E digest print parse capacity fuel edit w (path_of (d ++ [u])) input same output = (w', Ok tt) }.

(** What is on the disk: the user's primary and secondary configuration under the names that the
    platform looks for, and the user's other files under their own. *)
Definition put_as (w : world) (src name : option str) (l : list (str * str)) : Prop :=
  match src with
  | None => l = []
  | Some x => exists n c, name = Some n /\ read w x = Some c /\ l = [(n, c)]
  end.
Definition put_under_its_name (w : world) (path : str) (nc : str * str) : Prop :=
  fst nc = basename path /\ read w path = Some (snd nc).
Definition on_the_disk (w : world) (p : platform) (s : InjectModel.settings) (l : list (str * str)) : Prop :=
  exists A B C, l = A ++ B ++ C /\
    put_as w (InjectModel.given (InjectModel.s_config s)) (config_text_file p) A /\
    put_as w (InjectModel.given (InjectModel.s_secondary s)) (secondary_config_text_file p) B /\
    Forall2 (put_under_its_name w) (InjectModel.s_extra s) C.
(** The format of the image in the package *)
Definition disk_format (p : platform) : str := match p with IOSv => L "vmdk" | _ => L "iso" end.

(** The files that inject-config writes in the working directory *)
Definition scratch_name (p : platform) (n : str) : Prop :=
  config_text_file p = Some n \/ secondary_config_text_file p = Some n \/ n = L "config.iso" \/ n = L "config.img" \/ n = L "config.vmdk".
(** None of the user's files, and none of the files of the package, is one of them. *)
Definition user_files_apart (p : platform) (wd : str) (s : InjectModel.settings) : Prop :=
  forall x n, InjectModel.s_config s = Some x \/ InjectModel.s_secondary s = Some x \/ In x (InjectModel.s_extra s) ->
    scratch_name p n -> place x <> place (path_join wd n).
Definition package_files_apart (wd : str) (o : ovf) : Prop :=
  forall h d x n, In (h, OnDisk d x) (o_files o) -> scratch_name (o_platform o) n -> place (path_join d x) <> place (path_join wd n).
