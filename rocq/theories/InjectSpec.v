(** What users rely on when a configuration is injected. *)
From Verif Require Import PyBase PyDict XmlModel NamesModel ItemModel ItemSpec HardwareModel CountSpec ValidationSpec FindSpec
  PlatformModel RawModel PathModel DriveModel DriveSpec InjectModel.

(** The name of the configuration disk in the package. *)
Definition config_disk (p : platform) : str :=
  match p with IOSv => L "config.vmdk" | _ => L "config.iso" end.
(** The kind of drive it is put into, and the kind of image that is made for it. *)
Definition config_drive (p : platform) : str := match p with IOSv => L "harddisk" | _ => L "cdrom" end.
Definition config_format (p : platform) : str := match p with IOSv => L "raw" | _ => L "iso" end.

(** What is on the disk: the primary and the secondary configuration under the names that
    the platform looks for, and the other files under their own. *)
Definition one_file (h : host) (src : option str) (name : option str) (l : list (str * str)) : Prop :=
  match src with
  | None => l = []
  | Some s => exists n c, name = Some n /\ dget str_eqb s h = Some c /\ l = [(n, c)]
  end.
Definition as_is (h : host) (path : str) (nc : str * str) : Prop :=
  fst nc = basename path /\ dget str_eqb path h = Some (snd nc).
Definition disk_content (p : platform) (h : host) (s : settings) (l : list (str * str)) : Prop :=
  exists A B C, l = A ++ B ++ C /\
    one_file h (given (s_config s)) (config_text_file p) A /\
    one_file h (given (s_secondary s)) (secondary_config_text_file p) B /\
    Forall2 (as_is h) (s_extra s) C.
(** None of the given files is one that is written in the working directory. *)
Definition outside (p : platform) (wd : str) (s : settings) : Prop :=
  forall x n, s_config s = Some x \/ s_secondary s = Some x \/ In x (s_extra s) ->
    config_text_file p = Some n \/ secondary_config_text_file p = Some n -> x <> path_join wd n.

(** The addresses of controllers and on controllers are texts without a colon. *)
Definition plain_places (h : hw) : Prop :=
  plain_addresses h /\
  forall k i q w, In (k, i) h -> own (i_props i) ADDRESS_ON_PARENT q w -> exists s, w = VStr s /\ ~ In ":"%char s.
(** All CD-ROM drives are in the default profile. *)
Definition drives_everywhere (E : env) (h : hw) : Prop :=
  forall k i, In (k, i) h -> is_a (L "cdrom") i -> present E i None.

(** The drive is empty: a CD-ROM drive without anything in it, or a drive with a Disk that
    has no File. *)
Definition empty_cd (i : item) : Prop := is_a (L "cdrom") i /\ forall q w, ~ own (i_props i) HOST_RESOURCE q w.
Definition placeholder (v : version) (m : vmd) (d : elem) : Prop :=
  In d (disks v m) /\ get_attr d (DISK_FILE_REF v) = None.
Definition drive_of (v : version) (m : vmd) (i : item) (d : elem) : Prop :=
  exists q s, own (i_props i) HOST_RESOURCE q (VStr s) /\ disk_of v m s d.
(** It is the first one: the lowest InstanceID, or the first Disk of this sort. *)
Definition first_empty (E : env) (p : platform) (m : vmd) (k : str) (i : item) : Prop :=
  match p with
  | IOSv => exists A d B, disks (e_ver E) m = A ++ d :: B /\ (forall a, In a A -> ~ placeholder (e_ver E) m a) /\
      placeholder (e_ver E) m d /\ drive_of (e_ver E) m i d
  | _ => empty_cd i /\ forall k' i', In (k', i') (m_hw m) -> empty_cd i' -> k' <> k -> ~ natural_lt k' k
  end.
(** The drive that holds the configuration disk that is there. *)
Definition holds (v : version) (m : vmd) (i : item) (f : elem) : Prop :=
  exists q s, own (i_props i) HOST_RESOURCE q (VStr s) /\ file_of v m s f.
