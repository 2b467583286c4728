(** What users rely on about the collection of hardware items. *)
From Verif Require Import PyBase ValidationModel XmlModel XmlSpec NamesModel ItemModel ItemSpec HardwareModel.

(** One successful operation on the hardware.  Single items may be edited directly,
    except that nobody assigns an InstanceID. *)
Inductive hw_step (ver : version) (h : hw) : hw -> Prop :=
| H_new : forall E rt P k h', e_ver E = ver ->
    new_item E h rt P = Ok (k, h') -> hw_step ver h h'
| H_delete : forall E k h', e_ver E = ver ->
    delete_item E h k = Ok h' -> hw_step ver h h'
| H_clone : forall E k P k' h', e_ver E = ver ->
    clone_item E h k P = Ok (k', h') -> hw_step ver h h'
| H_count : forall E nic rt count P h', e_ver E = ver ->
    set_item_count E nic h rt count P = Ok h' -> hw_step ver h h'
| H_set_all : forall E rt n x P create h', e_ver E = ver -> n <> INSTANCE_ID ver ->
    set_value_for_all_items E h rt n x P create = Ok h' -> hw_step ver h h'
| H_set_values : forall E rt n xs P default h', e_ver E = ver -> n <> INSTANCE_ID ver ->
    set_item_values_per_profile E h rt n xs P default = Ok h' -> hw_step ver h h'
| H_drop : forall E p h', e_ver E = ver ->
    drop_profile E h p = Ok h' -> hw_step ver h h'
| H_item_set : forall E k i n x P ow i', e_ver E = ver -> n <> INSTANCE_ID ver ->
    In (k, i) h -> set_property E i n x P ow = Ok i' -> hw_step ver h (hset k i' h)
| H_item_add : forall E k i p i', e_ver E = ver -> In (k, i) h ->
    add_profile E i p None = Ok i' -> hw_step ver h (hset k i' h)
| H_item_remove : forall E k i p split i', e_ver E = ver -> In (k, i) h ->
    remove_profile E i p split = Ok i' -> hw_step ver h (hset k i' h).

(** All states of the hardware that arise by reading a document and any sequence of
    successful operations afterwards, with the configuration profiles of the document
    changing arbitrarily in between. *)
Inductive hw_reachable (ver : version) : hw -> Prop :=
| H_read : forall E sec h, e_ver E = ver -> read_hardware E sec = Ok h -> hw_reachable ver h
| H_step : forall h h', hw_reachable ver h -> hw_step ver h h' -> hw_reachable ver h'.

(** The device [i] answers [id] when asked for its InstanceID, for some profiles or
    for all at once. *)
Definition has_id (E : env) (i : item) (id : str) : Prop :=
  exists Q, get_value E (i_props i) (INSTANCE_ID (e_ver E)) Q = Ok (Some (VStr id)).

(** The InstanceID [s] is taken. *)
Definition taken (h : hw) (s : str) : Prop := exists i, In (s, i) h.

(** [s] is the first free number from [start] on. *)
Definition first_free (h : hw) (start : Z) (s : str) : Prop :=
  exists n, s = zdec n /\ (start <= n)%Z /\ ~ taken h s /\
    forall m, (start <= m < n)%Z -> taken h (zdec m).

(** ** The hardware section of the document *)

(** The Item elements of the section, and all its other children. *)
Definition item_children (v : version) (sec : elem) : list elem :=
  filter (is_item_elem v) (echildren sec).
Definition other_children (v : version) (sec : elem) : list elem :=
  filter (fun c => negb (is_item_elem v c)) (echildren sec).

(** [xs] are the elements generated for the devices, in natural order of their IDs. *)
Definition generated (E : env) (h : hw) (xs : list elem) : Prop :=
  exists keys xss, natural_sort (map fst h) = Ok keys /\
    Forall2 (fun k ys => exists i, In (k, i) h /\ generate_items E i = Ok ys) keys xss /\
    xs = concat xss.

(** Nothing tells that a device was changed or one came or went. *)
Definition looks_unchanged (v : version) (h : hw) (sec : elem) : Prop :=
  length h = length (item_children v sec) /\ forall k i, In (k, i) h -> i_modified i = false.

Definition has_tag (t : str) (x : elem) : bool := str_eqb (etag x) t.

(** The section [sec'] has exactly the elements [xs] as items: Item elements directly
    behind Info and System, all others at the end. *)
Definition holds_items (v : version) (sec : elem) (xs : list elem) (sec' : elem) : Prop :=
  same_but_children sec sec' /\
  exists pre post, other_children v sec = pre ++ post /\
    (forall c, In c pre -> etag c = INFO v \/ etag c = SYSTEM v) /\
    (forall c r, post = c :: r -> etag c <> INFO v /\ etag c <> SYSTEM v) /\
    echildren sec' = pre ++ filter (has_tag (ITEM v)) xs ++ post ++
                     filter (fun x => negb (has_tag (ITEM v) x)) xs.

(** A section and the hardware read from it, through any operations on the hardware,
    writes of the section, and edits of its other children. *)
Inductive history (ver : version) : hw -> elem -> Prop :=
| HH_read : forall E sec h, e_ver E = ver -> read_hardware E sec = Ok h -> history ver h sec
| HH_step : forall h h' sec, history ver h sec -> hw_step ver h h' -> history ver h' sec
| HH_write : forall E h sec sec', e_ver E = ver -> history ver h sec ->
    update_xml E h sec = Ok sec' -> history ver h sec'
| HH_other : forall h sec sec', history ver h sec ->
    item_children ver sec' = item_children ver sec -> history ver h sec'.

(** The same devices with the same recorded values. *)
Definition same_devices (h h' : hw) : Prop := forall k ps,
  (exists i, In (k, i) h /\ i_props i = ps) <-> (exists i, In (k, i) h' /\ i_props i = ps).

(** The Item elements of the section describe the devices: the devices are still as
    they were read from these elements, or the elements were generated from them. *)
Definition describes (ver : version) (sec : elem) (h : hw) : Prop :=
  (exists E sec0 h0, e_ver E = ver /\ read_hardware E sec0 = Ok h0 /\
     item_children ver sec = item_children ver sec0 /\ same_devices h h0) \/
  (exists E h0 xs, e_ver E = ver /\ generated E h0 xs /\ same_devices h h0 /\
     item_children ver sec =
       filter (has_tag (ITEM ver)) xs ++ filter (fun x => negb (has_tag (ITEM ver) x)) xs).
