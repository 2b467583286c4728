(** What a package on the disk should be. *)
From Coq Require Import List Ascii.
Import ListNotations.
From Verif Require Import PyBase ManifestSpec RawModel PathModel PathSpec TarModel TarSpec.

(** A package that can be written to directory [W], with descriptor [D] and manifest [M]:
    [data] are the contents of its files.  The names are unique and plain, and not the ones of
    descriptor and manifest; each file exists.  A file on the disk is already in its place, or
    it has a name without directory and is elsewhere; it is not where another file, the
    descriptor or the manifest are put. *)
Record copyable (w : world) (W : list str) (D M : str) (hrefs : list str) (refs : list (str * ref)) (data : str -> str) : Prop := {
  c_files : NoDup hrefs;
  c_refs : NoDup (map fst refs);
  c_all : forall h, In h hrefs <-> In h (map fst refs);
  c_names : forall h, In h hrefs -> (exists l, plain_name h l) /\ file_name_ok h /\ h <> D /\ h <> M;
  c_data : forall h r, In (h, r) refs -> content w r = Some (data h);
  c_disk : forall h d n, In (h, OnDisk d n) refs -> n = h
    /\ (path_join d n = path_join (path_of W) n \/ (~ In "/"%char h /\ place (path_join d n) <> W ++ [h]))
    /\ place (path_join d n) <> W ++ [D] /\ place (path_join d n) <> W ++ [M]
    /\ forall h' r' l, In (h', r') refs -> h' <> h -> plain_name h' l -> place (path_join d n) <> W ++ l;
  c_tar : forall h t n, In (h, InTar t n) refs -> normpath n = h }.

(** The name that a file is copied to. *)
Definition name_there (r : ref) : str := match r with OnDisk d n => basename (path_join d n) | InTar _ n => n end.
(** A complete package in directory [W]: descriptor, manifest and files are there. *)
Definition complete (w : world) (W : list str) (D M xml text : str) (hrefs : list str) (data : str -> str) : Prop :=
  w_files w (W ++ [D]) = Some xml /\ w_files w (W ++ [M]) = Some text /\
  forall h l, In h hrefs -> plain_name h l -> w_files w (W ++ l) = Some (data h).
(** Everything else is as it was. *)
Definition only_package (w w' : world) (W : list str) (D M : str) (hrefs : list str) : Prop :=
  (forall t, w_tars w' t = w_tars w t) /\
  forall q, q <> W ++ [D] -> q <> W ++ [M] -> (forall h l, In h hrefs -> plain_name h l -> q <> W ++ l) -> w_files w' q = w_files w q.
