(** A whole run of the command inject-config: COT/commands/command.py:280-305, 367-391
    (ReadWriteCommand: package, run, finished), COT/commands/inject_config.py:168-260 and
    COT/cli.py:413-423.

    The package is opened (OpenModel), the command makes a disk image in the working directory and
    puts it into the package (InjectModel), and the package is written (SaveModel). *)
From Coq Require Import List Ascii Bool ZArith.
Import ListNotations.
From Verif Require Import PyBase PyDict XmlModel NamesModel ItemModel HardwareModel InfoModel DriveModel PathModel PlatformModel TarModel OpenModel SaveModel CommandModel CommandFileModel.
From Verif Require InjectModel.

(** The files that InjectModel looks at, in the file system: those that the user gave, and the image,
    which must not be there yet.  Paths are absolute, and no directory is given. *)
Definition opt_list (o : option str) : list str := match o with Some x => [x] | None => [] end.
Definition looked_at (p : platform) (wd : str) (s : InjectModel.settings) : list str :=
  opt_list (InjectModel.s_config s) ++ opt_list (InjectModel.s_secondary s) ++ InjectModel.s_extra s ++
  [path_join wd (fst (InjectModel.made_name (bootstrap_disk_type p)))].
Definition host_of (w : world) (paths : list str) : InjectModel.host :=
  flat_map (fun x => match read w x with Some c => [(x, c)] | None => [] end) paths.

(** inject_config.py:212-229: the files for the image *)
Definition for_image (p : platform) (wd : str) (h : InjectModel.host) (s : InjectModel.settings) : result (list (str * str)) :=
  do c1 <- InjectModel.copy_as (InjectModel.s_config s) (config_text_file p) wd h;
  do c2 <- InjectModel.copy_as (InjectModel.s_secondary s) (secondary_config_text_file p) wd (snd c1);
  InjectModel.content (snd c2) (fst c1 ++ fst c2 ++ InjectModel.s_extra s).

Section Inject.
  Variable agree : prompt -> bool.
  Variable overwrite : option str -> bool.
  Variable make : str -> list (str * str) -> result (Z * Z).
  (** the programs that make an image of this format with these files: what is in the image *)
  Variable image_of : str -> list (str * str) -> str.

  (** inject_config.py:212-226: the copy of a configuration in the working directory *)
  Definition copied (wd : str) (src name : option str) (w : world) : world :=
    match InjectModel.given src, name with
    | Some x, Some n => match read w x with Some c => put w (path_join wd n) c | None => w end
    | _, _ => w
    end.
  (** inject_config.py:229-245 and ovf.py:1965-1998: the image, and for a hard disk the image that it
      is converted to *)
  Definition made (p : platform) (wd : str) (l : list (str * str)) (w : world) : world :=
    let dt := bootstrap_disk_type p in
    let path := path_join wd (fst (InjectModel.made_name dt)) in
    let w1 := put w path (image_of (snd (InjectModel.made_name dt)) l) in
    if str_eqb dt (L "harddisk") then put w1 (path_join wd (InjectModel.added_name dt path)) (image_of (L "vmdk") l) else w1.

  (** inject_config.py:168-260 on an open package.  If it fails, the files in the working directory
      do not matter, as that is removed. *)
  Definition inject_package (E : env) (fuel : nat) (wd : str) (s : InjectModel.settings) (w : world) (o : ovf) : result (world * ovf) :=
    let p := o_platform o in
    let dt := bootstrap_disk_type p in
    let h := host_of w (looked_at p wd s) in
    do mk <- InjectModel.inject_run agree overwrite make (env_of E o) fuel p wd h s (vmd_of o);
    do l <- for_image p wd h s;
    let im := mkImage wd (InjectModel.added_name dt (path_join wd (fst (InjectModel.made_name dt)))) 0 0 in
    Ok (made p wd l (copied wd (InjectModel.s_secondary s) (secondary_config_text_file p)
                       (copied wd (InjectModel.s_config s) (config_text_file p) w)),
        package_of_vmd o (Some im) (fst mk)).
End Inject.

Section Command.
  Variable E : env.
  Variable digest : str -> str -> str.
  Variable print : elem -> str.
  Variable parse : str -> option elem.
  Variable capacity : str -> result str.
  Variable fuel : nat.

  (** cli.py:413-423: package, run, finished, for a command that makes files as well *)
  Definition command_in (edit : world -> ovf -> result (world * ovf)) (w : world) (wd input : str) (same : bool) (output : str) : world * result unit :=
    match factory E digest parse w wd input output with
    | Err e => (w, Err e)
    | Ok o =>
        let w1 := after_opening w wd input in
        match edit w1 o with
        | Err e => (w1, Err e)
        | Ok (w2, o1) => write E digest print capacity fuel w2 wd input same (destination input output) o1
        end
    end.
End Command.
