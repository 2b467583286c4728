(** What users rely on about OVA archives. *)
From Verif Require Import PyBase PyDict ManifestModel ManifestSpec SelectModel PathModel PathSpec TarModel.

(** The place is the directory [W] or below it. *)
Definition inside (W p : list str) : Prop := exists rest, p = W ++ rest.
(** The place is in the directory [d], in something whose name begins with [w]. *)
Definition beside (d : list str) (w : str) (p : list str) : Prop := exists x rest, p = d ++ (w ++ x) :: rest.
(** Exactly two slashes at the start. *)
Definition two_slashes (n : str) : Prop := exists t, n = L "//" ++ t /\ forall u, t <> "/"%char :: u.
(** The name does not lead up or to the root. *)
Definition downward (n : str) : Prop := (forall t, n <> "/"%char :: t) /\ ~ In (L "..") (split_on "/"%char n).
(** The name ends in ".ovf" and something other than dots comes before, after the last slash. *)
Definition ovf_name (n : str) : Prop :=
  exists dir base, n = dir ++ base ++ L ".ovf" /\ (dir = [] \/ exists d, dir = d ++ ["/"%char]) /\
    ~ In "/"%char base /\ exists c, In c base /\ c <> "."%char.

(** A name with no "." or ".." or doubled slashes, that does not start or end with a slash. *)
Definition plain_name (h : str) (l : list str) : Prop := l <> [] /\ (forall c, In c l -> proper c) /\ h = join (L "/") l.

(** A package that can be written to an archive: [data] are the contents of its files; the
    names are unique and plain, and not the ones of the descriptor [D] and the manifest [M];
    each file exists, and files on the disk are not where the descriptor, the manifest and
    the files from the old archive are put. *)
Record packable (w : world) (W : list str) (D M : str) (hrefs : list str) (refs : list (str * ref)) (data : str -> str) : Prop := {
  p_files : NoDup hrefs;
  p_refs : NoDup (map fst refs);
  p_all : forall h, In h hrefs <-> In h (map fst refs);
  p_names : forall h, In h hrefs -> (exists l, plain_name h l) /\ file_name_ok h /\ h <> D /\ h <> M;
  p_data : forall h r, In (h, r) refs -> content w r = Some (data h);
  p_disk : forall h d n, In (h, OnDisk d n) refs -> n = h /\ place (path_join d n) <> W ++ [D] /\ place (path_join d n) <> W ++ [M] /\
    forall h' t n' l, In (h', InTar t n') refs -> plain_name h' l -> place (path_join d n) <> W ++ l;
  p_tar : forall h t n, In (h, InTar t n) refs -> normpath n = h }.

(** The path of a file without directory and extension. *)
Definition stem_of (path B : str) : Prop :=
  exists dir e, path = dir ++ B ++ "."%char :: e /\ (dir = [] \/ exists d, dir = d ++ ["/"%char]) /\
    ~ In "/"%char B /\ (exists c, In c B /\ c <> "."%char) /\ ~ In "/"%char e /\ ~ In "."%char e.
(** The archive that should be written: the descriptor, the manifest, and the files in order. *)
Definition packed (D M xml text : str) (hrefs : list str) (data : str -> str) (a : archive) : Prop :=
  exists files, a = mkMember D None xml :: mkMember M None text :: files /\
    Forall2 (fun h m => normpath (t_name m) = h /\ t_data m = data h) hrefs files.
