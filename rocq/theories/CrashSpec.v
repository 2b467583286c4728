(** What it means that writing is interrupted. *)
From Coq Require Import List Ascii.
Import ListNotations.
From Verif Require Import PyBase RawModel SelectModel PathModel PathSpec TarModel TarSpec OvfWriteModel OvfWriteSpec CrashModel.

(** In the middle of a change: a file has only the first part of its data; a TAR file to which
    a member is being added cannot be read. *)
Inductive amid (w : world) : effect -> world -> Prop :=
| amid_write : forall p d n, amid w (Write p d) (put w p (firstn n d))
| amid_append : forall ts m, amid w (Append ts m) (mkWorld (w_files w) (fun t => if mem_str t ts then None else w_tars w t)).
(** The program stops somewhere on its way through the changes [es]: between two of them, before
    the first or after the last, or in the middle of one. *)
Definition stopped (w : world) (es : list effect) (w' : world) : Prop :=
  exists before after, es = before ++ after /\
    (w' = perform w before \/ exists e rest, after = e :: rest /\ amid (perform w before) e w').

(** All files and archives but these are as they were. *)
Definition unchanged_but (w w' : world) (files : list str -> Prop) (tars : str -> Prop) : Prop :=
  (forall q, w_files w' q <> w_files w q -> files q) /\ (forall t, w_tars w' t <> w_tars w t -> tars t).
(** What a package written as [output] with files beside it consists of *)
Definition ovf_targets (output : str) (refs : list (str * ref)) (q : list str) : Prop :=
  q = place output \/ q = place (splitext_root output ++ L ".mf")
  \/ exists h r, In (h, r) refs /\ q = place (path_join (dirname (normpath output)) (name_there r)).
(** What is put into the working directory when an archive is written *)
Definition ova_targets (wd output : str) (same : bool) (refs : list (str * ref)) (q : list str) : Prop :=
  let descriptor := path_join wd (basename (splitext_root output) ++ L ".ovf") in
  q = place descriptor \/ q = place (splitext_root descriptor ++ L ".mf")
  \/ same = true /\ exists h t n, In (h, InTar t n) refs /\ q = place (path_join wd n).

(** The working directory [W] has been removed. *)
Definition removed (W : list str) (w w' : world) : Prop :=
  (forall t, w_tars w' t = w_tars w t) /\ (forall q, inside W q -> w_files w' q = None) /\ (forall q, ~ inside W q -> w_files w' q = w_files w q).
