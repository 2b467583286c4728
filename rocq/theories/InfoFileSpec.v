(** What users rely on about the list of files and disks that [cot info] prints. *)
From Coq Require Import List Ascii ZArith QArith.
Import ListNotations.
From Verif Require Import PyBase PyDict NamesModel XmlModel ItemModel ItemSpec HardwareModel CountSpec FindSpec PlatformModel DriveModel DriveSpec InfoSpec.
Local Open Scope nat_scope.

(** The value that the device has for a property, if it has the same one everywhere. *)
Inductive one_text (E : env) (i : item) (n : str) : str -> Prop :=
  | One_text x : only_value (i_props i) n x -> one_text E i n (vtext E x)
  | No_text : (forall x, ~ only_value (i_props i) n x) -> one_text E i n (L "None").
(** The name of its type. *)
Inductive type_name (E : env) (i : item) : str -> Prop :=
  | Known_type t n : only_value (i_props i) RESOURCE_TYPE (VStr t) -> dget str_eqb n RES_MAP = Some t -> type_name E i n
  | Unknown_type t : (forall s n, only_value (i_props i) RESOURCE_TYPE (VStr s) -> dget str_eqb n RES_MAP <> Some s) ->
      one_text E i RESOURCE_TYPE t -> type_name E i (L "unknown (" ++ t ++ L ")").
(** The device [ci] is the controller of the device [i]. *)
Definition controls (E : env) (h : hw) (i : item) (ck : str) (ci : item) : Prop :=
  exists x, only_value (i_props i) PARENT x /\ In (ck, ci) h /\ present E ci None /\ only_value (i_props ci) (INSTANCE_ID (e_ver E)) x.

(** How a drive is described. *)
Inductive drive_shown (E : env) (h : hw) (i : item) : str -> Prop :=
  | On_controller t a ck ci ct ca :
      type_name E i t -> one_text E i ADDRESS_ON_PARENT a ->
      controls E h i ck ci -> type_name E ci ct -> one_text E ci ADDRESS ca ->
      drive_shown E h i (t ++ L " @ " ++ upper ct ++ L " " ++ ca ++ L ":" ++ a)
  | Without_controller t a :
      type_name E i t -> one_text E i ADDRESS_ON_PARENT a -> (forall ck ci, ~ controls E h i ck ci) ->
      drive_shown E h i (t ++ L " @ (?) ?:" ++ a).

(** The drive behind a reference, in its present or its older form. *)
Definition holds (E : env) (h : hw) (s k : str) (i : item) : Prop :=
  In (k, i) h /\ present E i None /\ only_value (i_props i) HOST_RESOURCE (VStr s).
Definition drive_of (E : env) (h : hw) (new old k : str) (i : item) : Prop :=
  holds E h new k i \/ ((forall k' i', ~ holds E h new k' i') /\ holds E h old k i).
(** The text in the column of devices: nothing if there is no drive. *)
Definition device_text (E : env) (h : hw) (new old t : str) : Prop :=
  (exists k i, drive_of E h new old k i /\ drive_shown E h i t)
  \/ (t = [] /\ forall k i, ~ drive_of E h new old k i).

(** A name in a column of width [w]: in full if it fits, otherwise its start and dots. *)
Definition name_cell (w : nat) (name c : str) : Prop :=
  (length (L "  " ++ name) <= w /\ c = L "  " ++ name)
  \/ (w < length (L "  " ++ name) /\ exists start rest, L "  " ++ name = start ++ rest /\ c = start ++ L "..." /\ length c = w).

(** the size of a File: its text in readable form, or nothing *)
Definition size_text (pretty : str -> result str) (v : version) (f : elem) (t : str) : Prop :=
  match get_attr f (FILE_SIZE v) with Some s => pretty s = Ok t | None => t = [] end.

(** The row of File [f], and the identifier of its Disk (empty if it has none). *)
Inductive file_shown (E : env) (pretty : str -> result str) (m : vmd) (w : nat) (f : elem) : str -> option str -> Prop :=
  | With_disk d id did name cell size c cap dev :
      get_attr f (FILE_HREF (e_ver E)) = Some name -> name_cell w name cell -> size_text pretty (e_ver E) f size ->
      get_attr f (FILE_ID (e_ver E)) = Some id -> In d (disks (e_ver E) m) -> get_attr d (DISK_FILE_REF (e_ver E)) = Some id ->
      (forall d', In d' (disks (e_ver E) m) -> get_attr d' (DISK_FILE_REF (e_ver E)) = Some id -> d' = d) ->
      get_attr d (DISK_ID (e_ver E)) = Some did ->
      capacity (e_ver E) d c -> human c cap ->
      device_text E (m_hw m) (DISK_REF (e_ver E) ++ did) (OLD_DISK_REF ++ did) dev ->
      file_shown E pretty m w f (row_of [to_left w cell; to_right 9 size; to_right 9 cap; firstn 20 dev]) (Some did)
  | With_drive id name cell size dev :
      get_attr f (FILE_HREF (e_ver E)) = Some name -> name_cell w name cell -> size_text pretty (e_ver E) f size ->
      get_attr f (FILE_ID (e_ver E)) = Some id ->
      (forall d, In d (disks (e_ver E) m) -> get_attr d (DISK_FILE_REF (e_ver E)) <> Some id) ->
      device_text E (m_hw m) (FILE_REF (e_ver E) ++ id) (OLD_FILE_REF ++ id) dev -> dev <> [] ->
      file_shown E pretty m w f (row_of [to_left w cell; to_right 9 size; to_right 9 []; firstn 20 dev]) None
  | With_nothing id name cell size :
      get_attr f (FILE_HREF (e_ver E)) = Some name -> name_cell w name cell -> size_text pretty (e_ver E) f size ->
      get_attr f (FILE_ID (e_ver E)) = Some id ->
      (forall d, In d (disks (e_ver E) m) -> get_attr d (DISK_FILE_REF (e_ver E)) <> Some id) ->
      device_text E (m_hw m) (FILE_REF (e_ver E) ++ id) (OLD_FILE_REF ++ id) [] ->
      file_shown E pretty m w f (row_of [to_left w cell; to_right 9 size]) None.

(** What is shown of Disk [d]: nothing if it is that of a File, otherwise a row of its own. *)
Inductive disk_shown (E : env) (m : vmd) (w : nat) (d : elem) : list str -> Prop :=
  | Disk_of_file f : In f (files (e_ver E) m) -> get_attr f (FILE_ID (e_ver E)) = get_attr d (DISK_FILE_REF (e_ver E)) -> disk_shown E m w d []
  | Disk_alone did c cap dev :
      (forall f, In f (files (e_ver E) m) -> get_attr f (FILE_ID (e_ver E)) <> get_attr d (DISK_FILE_REF (e_ver E))) ->
      get_attr d (DISK_ID (e_ver E)) = Some did ->
      capacity (e_ver E) d c -> human c cap ->
      device_text E (m_hw m) (DISK_REF (e_ver E) ++ did) (OLD_DISK_REF ++ did) dev ->
      disk_shown E m w d [row_of [to_left w (L "  (disk placeholder)"); to_right 9 (L "--"); to_right 9 cap; firstn 20 dev]].
