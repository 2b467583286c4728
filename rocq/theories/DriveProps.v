(** C30, C31: files, disks, drives, controllers and addresses. *)
From Coq Require Import Lia ZArith.
From Verif Require Import PyBase PyBaseProofs PyDict ValidationModel ValidationSpec XmlModel NamesModel ItemModel ItemSpec
  HardwareModel HardwareSpec HardwareIdProofs CountSpec FindSpec NetworkModel DriveModel DriveSpec
  LinkProofs SlotProofs DeviceProofs AddressProofs OrderlyProofs ItemProps HardwareProps CountProps FindProps.
Local Open Scope nat_scope.

(** ** C30 *)

(** Adding a disk to a package that is in order: it stays in order.  There is one new or
    replaced File with the name and size of the image, and one new or replaced Disk for it
    if it is a hard disk; the drive is of the asked type and stands for exactly this Disk or
    File; it hangs on a controller that exists and is of the asked type.  All other Files,
    Disks and devices stay. *)
Theorem C30_add_disk : forall agree E fuel guess m im dt file_id controller subtype address diskname desc m' k,
  orderly E m -> no_slash im file_id -> (dt = L "harddisk" -> disk_ids_apart (e_ver E) m im file_id) ->
  (forall c, controller = Some c -> known_type c) -> known_type (guess dt) ->
  add_disk_worker agree E fuel guess m im dt file_id controller subtype address diskname desc = Ok (m', k) ->
  orderly E m' /\
  exists f i s t ck ci ct,
    replaced (files (e_ver E) m) (files (e_ver E) m') f /\
    get_attr f (FILE_HREF (e_ver E)) = Some (im_name im) /\ get_attr f (FILE_SIZE (e_ver E)) = Some (zdec (im_size im)) /\
    dget str_eqb (im_name im) (m_sources m') = Some (im_dir im) /\ same_sources (e_ver E) m m' (im_name im) /\
    In (k, i) (m_hw m') /\ present E i None /\
    dget str_eqb dt RES_MAP = Some t /\ only_value (i_props i) RESOURCE_TYPE (VStr t) /\
    only_value (i_props i) HOST_RESOURCE (VStr s) /\ file_of (e_ver E) m' s f /\
    (dt = L "harddisk" -> exists d, replaced (disks (e_ver E) m) (disks (e_ver E) m') d /\ disk_of (e_ver E) m' s d) /\
    (dt <> L "harddisk" -> removed (disks (e_ver E) m) (disks (e_ver E) m')) /\
    only_value (i_props i) PARENT (VStr ck) /\ In (ck, ci) (m_hw m') /\ (ck <> k -> is_a ct ci) /\
    (forall c, controller = Some c -> ct = c) /\
    (forall k' j, k' <> k -> k' <> ck -> (In (k', j) (m_hw m') <-> In (k', j) (m_hw m))).
Proof. exact add_disk_orderly. Qed.
Print Assumptions C30_add_disk.

(** Adding a file keeps a package in order, changes or adds one File and nothing else. *)
Theorem C30_add_file : forall agree E m im file_id m',
  orderly E m -> no_slash im file_id -> ids_agree (e_ver E) m im file_id -> add_file_run agree E m im file_id = Ok m' ->
  orderly E m' /\ m_hw m' = m_hw m /\ m_disks m' = m_disks m /\
  same_sources (e_ver E) m m' (im_name im) /\ dget str_eqb (im_name im) (m_sources m') = Some (im_dir im) /\
  exists f, replaced (files (e_ver E) m) (files (e_ver E) m') f /\
    get_attr f (FILE_HREF (e_ver E)) = Some (im_name im) /\ get_attr f (FILE_SIZE (e_ver E)) = Some (zdec (im_size im)) /\
    (forall s, file_id = Some s -> get_attr f (FILE_ID (e_ver E)) = Some s).
Proof. exact add_file_orderly. Qed.
Print Assumptions C30_add_file.

(** Removing a file keeps a package in order.  Exactly the one File that was named goes, and
    exactly its Disk; a hard disk drive for it goes, a CD-ROM drive for it stays but is
    empty; all other Files, Disks and devices stay. *)
Theorem C30_remove_file : forall agree E m path id m',
  orderly E m -> remove_file_run agree E m path id = Ok m' ->
  orderly E m' /\
  exists f A B, files (e_ver E) m = A ++ f :: B /\ files (e_ver E) m' = A ++ B /\
    (forall p, path = Some p -> get_attr f (FILE_HREF (e_ver E)) = Some p) /\ (forall s, id = Some s -> get_attr f (FILE_ID (e_ver E)) = Some s) /\
    (exists h, get_attr f (FILE_HREF (e_ver E)) = Some h /\ forall h', h' <> h -> dget str_eqb h' (m_sources m') = dget str_eqb h' (m_sources m)) /\
    (exists o C D, disks (e_ver E) m = C ++ o ++ D /\ disks (e_ver E) m' = C ++ D /\
       (forall d, In d o <-> In d (disks (e_ver E) m) /\ get_attr d (DISK_FILE_REF (e_ver E)) = get_attr f (FILE_ID (e_ver E)))) /\
    (forall k i, In (k, i) (m_hw m) -> (forall p s, own (i_props i) HOST_RESOURCE p (VStr s) -> ~ file_of (e_ver E) m s f) -> In (k, i) (m_hw m')) /\
    (forall k i p s, In (k, i) (m_hw m) -> own (i_props i) HOST_RESOURCE p (VStr s) -> file_of (e_ver E) m s f ->
       (only_value (i_props i) RESOURCE_TYPE (VStr (L "17")) /\ ~ taken (m_hw m') k) \/
       (only_value (i_props i) RESOURCE_TYPE (VStr (L "15")) /\ exists i', In (k, i') (m_hw m') /\
          (forall q w, ~ own (i_props i') HOST_RESOURCE q w) /\
          (forall n q w, n <> HOST_RESOURCE -> (own (i_props i') n q w <-> own (i_props i) n q w)))) /\
    (forall k, taken (m_hw m') k -> taken (m_hw m) k).
Proof. exact remove_file_orderly. Qed.
Print Assumptions C30_remove_file.

(** Any number of these commands, in any order. *)
Theorem C30_history : forall E m m', orderly E m -> managed E m m' -> orderly E m'.
Proof. exact managed_orderly. Qed.
Print Assumptions C30_history.

(** ** C31 *)

(** The address of a drive that is new.  Without a wish, it gets the lowest free address on
    the first controller of the type that is not full, or on a new controller if all are
    full, which gets the lowest free address itself; the ranges are not exceeded.  With a
    wish, it gets it, and no device of the default profile was there. *)
Theorem C31_new_drive : forall agree E fuel guess m im dt file_id controller subtype address diskname desc m' k,
  orderly E m -> plain_addresses (m_hw m) ->
  (forall c, controller = Some c -> known_type c) -> known_type (guess dt) -> (address <> None -> controller <> None) ->
  add_disk_worker agree E fuel guess m im dt file_id controller subtype address diskname desc = Ok (m', k) ->
  ~ taken (m_hw m) k ->
  exists i ck ci ct, In (k, i) (m_hw m') /\ In (ck, ci) (m_hw m') /\ ck <> k /\ is_a ct ci /\
    ct = (match controller with Some c => c | None => guess dt end) /\
    only_value (i_props i) PARENT (VStr ck) /\
    match address with
    | None => exists a, only_value (i_props i) ADDRESS_ON_PARENT (VStr (zdec a)) /\ lowest_unused (occupied (m_hw m) ck) a /\
        ((taken (m_hw m) ck /\ (forall z, last_slot ct z -> (a <= z)%Z) /\
          exists ks1 ks2, are_wanted E (m_hw m) (Some ct) [] [] (ks1 ++ ck :: ks2) /\ forall k', In k' ks1 -> full (m_hw m) ct k') \/
         (~ taken (m_hw m) ck /\ (forall k' i', In (k', i') (m_hw m) -> is_a ct i' -> full (m_hw m) ct k') /\
          exists c, only_value (i_props ci) ADDRESS (VStr (zdec c)) /\ lowest_unused (controller_at (m_hw m) ct) c /\
            forall z, last_controller ct z -> (c <= z)%Z))
    | Some s => exists x y rest, split_on ":"%char s = x :: y :: rest /\
        (x <> [] -> only_value (i_props ci) ADDRESS (VStr x)) /\ (y <> [] -> only_value (i_props i) ADDRESS_ON_PARENT (VStr y)) /\
        (forall k' i', In (k', i') (m_hw m) -> present E i' None -> only_value (i_props i') PARENT (VStr ck) -> taken (m_hw m) ck ->
           ~ only_value (i_props i') ADDRESS_ON_PARENT (VStr y)) /\
        (~ taken (m_hw m) ck -> forall k' i', In (k', i') (m_hw m) -> is_a ct i' -> present E i' None -> ~ only_value (i_props i') ADDRESS (VStr x))
    end.
Proof.
  intros agree E fuel guess m im dt file_id controller subtype address diskname desc m' k [O1 O2 O3 O4 O5 O6 O7 O8] Pa HC HG HA H Nk.
  eapply worker_address; eassumption.
Qed.
Print Assumptions C31_new_drive.

(** Looking for a controller with room: the first of the type, by InstanceID, that is not
    full, with its lowest free address; none only if all are full; an error only if the
    InstanceIDs cannot be sorted. *)
Theorem C31_open_controller : forall E m ct t, hw_reachable (e_ver E) (m_hw m) -> identified E (m_hw m) ->
  dget str_eqb ct RES_MAP = Some t ->
  match find_open_controller E m ct with
  | Ok (Some (k, addr)) => exists ks1 ks2 ca a, are_wanted E (m_hw m) (Some ct) [] [] (ks1 ++ k :: ks2) /\
      (forall k', In k' ks1 -> full (m_hw m) ct k') /\
      value_of E m k ADDRESS = Ok ca /\ addr = shown_value E ca ++ L ":" ++ zdec a /\
      lowest_unused (occupied (m_hw m) k) a /\ (forall z, last_slot ct z -> (a <= z)%Z)
  | Ok None => forall k i, In (k, i) (m_hw m) -> is_a ct i -> full (m_hw m) ct k
  | Err e => forall keys, natural_sort (map fst (m_hw m)) <> Ok keys
  end.
Proof. intros E m ct t R. apply find_open_spec. now apply reachable_ids. Qed.
Print Assumptions C31_open_controller.

(** A new controller has the address that was asked for, or the lowest that no controller of
    the type has; it is an error if this is past the range. *)
Theorem C31_new_controller : forall E m ct sub address m' k, hw_reachable (e_ver E) (m_hw m) ->
  add_controller_device E m ct sub address None = Ok (m', k) ->
  exists i t a, dget str_eqb ct RES_MAP = Some t /\ m' = with_hw (m_hw m ++ [(k, i)]) m /\ ~ taken (m_hw m) k /\
    only_value (i_props i) RESOURCE_TYPE (VStr t) /\ (a <> [] -> only_value (i_props i) ADDRESS (VStr a)) /\
    (match address with Some a' => a = a' | None => exists z, a = zdec z /\ lowest_unused (controller_at (m_hw m) ct) z end) /\
    (forall z, last_controller ct z -> exists x, py_int a = Some x /\ (x <= z)%Z).
Proof.
  intros E m ct sub address m' k R H. apply reachable_ids in R. apply add_controller_new in H as (i & t & a & H1 & H2 & B & H3 & H4 & H5 & H6 & _); [|exact R].
  exists i, t, a. destruct B as (_ & B & _). now repeat (split; [assumption|]).
Qed.
Print Assumptions C31_new_controller.

(** ** Examples *)
Definition ctrl_item (id rt a : string) : elem :=
  an_item [] [rasd "Address" a; rasd "ElementName" "Controller"; rasd "InstanceID" id; rasd "ResourceType" rt].
Definition base_hw : hw := hw_of [cpu_item; ctrl_item "2" "5" "0"; ctrl_item "3" "6" "0"].
Definition base : vmd := mkVmd (Elem (OVF_NS V1 ++ L "References") [] None None []) None base_hw [].
Definition vmdk : image := mkImage (L "/in") (L "vm.vmdk") 1000 1073741824.
Definition iso : image := mkImage (L "/in") (L "c.iso") 2000 2000.
Definition data : image := mkImage (L "/in") (L "data.vmdk") 3000 1073741824.
Definition notes : image := mkImage (L "/in") (L "notes.txt") 40 40.
Definition yes (p : prompt) : bool := true.
Definition ide (t : str) : str := L "ide".
Definition add (m : vmd) (im : image) (dt : string) : result (vmd * str) :=
  add_disk_worker yes env0 100 ide m im (L dt) None None None None None None.
Definition model (r : result (vmd * str)) : vmd := match r with Ok x => fst x | Err _ => base end.
Definition m1 : vmd := model (add base vmdk "harddisk").
Definition m2 : vmd := model (add m1 iso "cdrom").
Definition m3 : vmd := model (add m2 data "harddisk").
Definition m4 : vmd := match add_file_run yes env0 m3 notes None with Ok m => m | Err _ => base end.
Definition m5 : vmd := match remove_file_run yes env0 m4 (Some (L "vm.vmdk")) None with Ok m => m | Err _ => base end.

Lemma no_host_ok : forall h : hw, forallb (fun ki => match recs (snd ki) HOST_RESOURCE with [] => true | _ => false end) h = true ->
  forall k i p v, In (k, i) h -> ~ own (i_props i) HOST_RESOURCE p v.
Proof.
  intros h H k i p v Hi Ho. rewrite forallb_forall in H. specialize (H _ Hi). cbn [snd] in H.
  assert (Hr : In p (recs i HOST_RESOURCE)) by (apply recs_In; now exists v).
  destruct (recs i HOST_RESOURCE); [exact Hr|discriminate].
Qed.
Lemma identified_ok : forall h : hw, kept V1 h -> forallb (fun ki => match recs (snd ki) (INSTANCE_ID V1) with [] => false | _ => true end) h = true ->
  identified env0 h.
Proof.
  intros h [_ K] H k i Hi. rewrite forallb_forall in H. specialize (H _ Hi). cbn [snd] in H. change (e_ver env0) with V1.
  destruct (recs i (INSTANCE_ID V1)) as [|p l] eqn:E; [discriminate|]. exists p.
  assert (Hr : In p (recs i (INSTANCE_ID V1))) by (rewrite E; now left). apply recs_In in Hr as [v Hv].
  destruct (K k i Hi) as [_ Kv]. now rewrite (Kv p v Hv) in Hv.
Qed.
Lemma base_reachable : hw_reachable V1 base_hw.
Proof. unfold base_hw. match goal with |- hw_reachable _ (hw_of ?l) => apply (hw_of_reachable l) end. eexists. vm_compute. reflexivity. Qed.
Lemma empty_orderly : forall h, hw_reachable V1 h -> 
  forallb (fun ki => match recs (snd ki) HOST_RESOURCE with [] => true | _ => false end) h = true ->
  forallb (fun ki => match recs (snd ki) (INSTANCE_ID V1) with [] => false | _ => true end) h = true ->
  orderly env0 (mkVmd (m_refs base) None h []).
Proof.
  intros h R H1 H2. assert (K : kept V1 h) by exact (reachable_ids V1 h R). pose proof (no_host_ok h H1) as N.
  constructor; cbn [m_hw m_sources].
  - exact K.
  - now apply identified_ok.
  - split; try (split; [intros e []|constructor]).
    + intros d r [].
    + intros k i p s id Hi Ho. exfalso. exact (N k i p _ Hi Ho).
    + intros k i p s id Hi Ho. exfalso. exact (N k i p _ Hi Ho).
  - intros k i Hi. split; [intros p q v w Ho|intros p v Ho]; exfalso; exact (N k i p _ Hi Ho).
  - split; intros x id [].
  - intros d d' r [].
  - intros k i p s k' i' p' s' Hi Ho. exfalso. exact (N k i p _ Hi Ho).
  - split; [constructor|]. intros x. split; [intros [d F]; discriminate F|intros (f & [] & _)].
Qed.
Lemma base_orderly : orderly env0 base.
Proof. apply (empty_orderly base_hw); [exact base_reachable|vm_compute; reflexivity|vm_compute; reflexivity]. Qed.

Lemma apart_ok : forall m im fid, forallb (fun d => opt_eqb (get_attr d (DISK_ID V1)) (get_attr d (DISK_FILE_REF V1))) (disks V1 m) = true ->
  disk_ids_apart (e_ver env0) m im fid.
Proof.
  intros m im fid H x _ d Hd Hx. rewrite forallb_forall in H. specialize (H d Hd). apply opt_eqb_eq in H.
  change (e_ver env0) with V1 in *. congruence.
Qed.
Lemma agree_ok : forall m im, forallb (fun f => negb (opt_eqb (get_attr f (FILE_ID V1)) (Some (im_name im)))) (files V1 m) = true ->
  ids_agree (e_ver env0) m im None.
Proof.
  intros m im H. split; [|discriminate]. intros _ f Hf Hx. rewrite forallb_forall in H. specialize (H f Hf). cbn beta in H.
  change (e_ver env0) with V1 in *. rewrite Hx in H. rewrite (proj2 (opt_eqb_eq _ _) eq_refl) in H. discriminate.
Qed.
Lemma no_slash_ok : forall im, forallb (fun c => negb (Ascii.eqb c "/")) (im_name im) = true -> no_slash im None.
Proof.
  intros im H. split; [|discriminate]. intros Hin. rewrite forallb_forall in H. specialize (H _ Hin). discriminate H.
Qed.

Lemma step1 : add base vmdk "harddisk" = Ok (m1, L "4"). Proof. vm_compute. reflexivity. Qed.
Lemma step2 : add m1 iso "cdrom" = Ok (m2, L "5"). Proof. vm_compute. reflexivity. Qed.
Lemma step3 : add m2 data "harddisk" = Ok (m3, L "7"). Proof. vm_compute. reflexivity. Qed.
Lemma step4 : add_file_run yes env0 m3 notes None = Ok m4. Proof. vm_compute. reflexivity. Qed.
Lemma step5 : remove_file_run yes env0 m4 (Some (L "vm.vmdk")) None = Ok m5. Proof. vm_compute. reflexivity. Qed.
Lemma known_ide : known_type (L "ide"). Proof. eexists. vm_compute. reflexivity. Qed.

Lemma add_step : forall m m1 im dt m2 k, managed env0 m m1 -> forallb (fun c => negb (Ascii.eqb c "/")) (im_name im) = true ->
  forallb (fun d => opt_eqb (get_attr d (DISK_ID V1)) (get_attr d (DISK_FILE_REF V1))) (disks V1 m1) = true ->
  add m1 im dt = Ok (m2, k) -> managed env0 m m2.
Proof.
  intros m n1 im dt n2 k H N A S.
  apply (M_add_disk env0 m n1 yes 100 ide im (L dt) None None None None None None n2 k H (no_slash_ok im N)); [|discriminate|exact known_ide|exact S].
  intros _. now apply apart_ok.
Qed.
Lemma file_step : forall m m1 im m2, managed env0 m m1 -> forallb (fun c => negb (Ascii.eqb c "/")) (im_name im) = true ->
  forallb (fun f => negb (opt_eqb (get_attr f (FILE_ID V1)) (Some (im_name im)))) (files V1 m1) = true ->
  add_file_run yes env0 m1 im None = Ok m2 -> managed env0 m m2.
Proof. intros m n1 im n2 H N A S. exact (M_add_file env0 m n1 yes im None n2 H (no_slash_ok im N) (agree_ok n1 im A) S). Qed.
Lemma history1 : managed env0 base m1.
Proof. refine (add_step base base vmdk "harddisk" m1 (L "4") (M_start env0 base) _ _ step1); vm_compute; reflexivity. Qed.
Lemma history2 : managed env0 base m2.
Proof. refine (add_step base m1 iso "cdrom" m2 (L "5") history1 _ _ step2); vm_compute; reflexivity. Qed.
Lemma history3 : managed env0 base m3.
Proof. refine (add_step base m2 data "harddisk" m3 (L "7") history2 _ _ step3); vm_compute; reflexivity. Qed.
Lemma history4 : managed env0 base m4.
Proof. refine (file_step base m3 notes m4 history3 _ _ step4); vm_compute; reflexivity. Qed.
Lemma history5 : managed env0 base m5.
Proof. exact (M_remove_file env0 base m4 yes (Some (L "vm.vmdk")) None m5 history4 step5). Qed.

(** What can be seen of a package: names and identifiers of the Files, identifiers of the
    Disks and their Files, the type, HostResource, controller and address of each device. *)
Definition summary (m : vmd) : list (option str * option str) * list (option str * option str) *
    list (str * list (option (result (option value)))) :=
  (map (fun f => (get_attr f (FILE_HREF V1), get_attr f (FILE_ID V1))) (files V1 m),
   map (fun d => (get_attr d (DISK_ID V1), get_attr d (DISK_FILE_REF V1))) (disks V1 m),
   map (fun k => (k, map (fun n => shown (m_hw m) k n None) [RESOURCE_TYPE; ADDRESS; HOST_RESOURCE; PARENT; ADDRESS_ON_PARENT])) (map fst (m_hw m))).
Definition row (k : string) (l : list string) : str * list (option (result (option value))) :=
  (L k, map (fun s => Some (Ok (match L s with [] => None | t => Some (VStr t) end))) l).

(** A disk and a CD image fill the controller at 0; the next disk gets a new controller,
    which is at 1 (C31); removing the first disk takes its File, Disk and drive along and
    nothing else. *)
Example C30_history_example : orderly env0 base /\ managed env0 base m4 /\ managed env0 base m5 /\
  summary m4 = ([(Some (L "vm.vmdk"), Some (L "vm.vmdk")); (Some (L "c.iso"), Some (L "c.iso"));
                 (Some (L "data.vmdk"), Some (L "data.vmdk")); (Some (L "notes.txt"), Some (L "notes.txt"))],
                [(Some (L "vm.vmdk"), Some (L "vm.vmdk")); (Some (L "data.vmdk"), Some (L "data.vmdk"))],
                [row "1" ["3"; ""; ""; ""; ""]; row "2" ["5"; "0"; ""; ""; ""]; row "3" ["6"; "0"; ""; ""; ""];
                 row "4" ["17"; ""; "ovf:/disk/vm.vmdk"; "2"; "0"]; row "5" ["15"; ""; "ovf:/file/c.iso"; "2"; "1"];
                 row "6" ["5"; "1"; ""; ""; ""]; row "7" ["17"; ""; "ovf:/disk/data.vmdk"; "6"; "0"]])%string /\
  summary m5 = ([(Some (L "c.iso"), Some (L "c.iso"));
                 (Some (L "data.vmdk"), Some (L "data.vmdk")); (Some (L "notes.txt"), Some (L "notes.txt"))],
                [(Some (L "data.vmdk"), Some (L "data.vmdk"))],
                [row "1" ["3"; ""; ""; ""; ""]; row "2" ["5"; "0"; ""; ""; ""]; row "3" ["6"; "0"; ""; ""; ""];
                 row "5" ["15"; ""; "ovf:/file/c.iso"; "2"; "1"];
                 row "6" ["5"; "1"; ""; ""; ""]; row "7" ["17"; ""; "ovf:/disk/data.vmdk"; "6"; "0"]])%string.
Proof.
  split; [exact base_orderly|]. split; [exact history4|]. split; [exact history5|]. split; vm_compute; reflexivity.
Qed.

Lemma plain_addresses_ok : forall h : hw,
  forallb (fun ki => forallb (fun nd => negb (str_eqb (fst nd) ADDRESS) ||
    forallb (fun vs => match fst vs with VStr s => forallb (fun c => negb (Ascii.eqb c ":")) s | _ => false end) (snd nd)) (i_props (snd ki))) h = true ->
  plain_addresses h.
Proof.
  intros h H k i p w Hi (d & s & H1 & H2 & H3). rewrite forallb_forall in H. specialize (H _ Hi). cbn [snd] in H.
  rewrite forallb_forall in H. specialize (H _ H1). cbn [fst snd] in H. rewrite str_eqb_refl in H. cbn [negb orb] in H.
  rewrite forallb_forall in H. specialize (H _ H2). cbn [fst] in H. destruct w as [t|]; [|discriminate]. exists t. split; [reflexivity|].
  intros Hc. rewrite forallb_forall in H. specialize (H _ Hc). discriminate H.
Qed.
(** The disk that gets a new controller at address 1 meets the hypotheses; so does one that
    is put on the SCSI controller at a given address.  When both controllers at 0 and 1 are
    full, no further disk is added. *)
Example C31_new_drive_example : exists m' m'' k'',
  orderly env0 m2 /\ plain_addresses (m_hw m2) /\ add m2 data "harddisk" = Ok (m3, L "7") /\ ~ taken (m_hw m2) (L "7") /\
  add_disk_worker yes env0 100 ide m2 data (L "harddisk") None (Some (L "scsi")) None (Some (L "0:3")) None None = Ok (m', L "6") /\
  shown (m_hw m') (L "6") PARENT None = Some (Ok (Some (VStr (L "3")))) /\
  shown (m_hw m') (L "6") ADDRESS_ON_PARENT None = Some (Ok (Some (VStr (L "3")))) /\
  add m3 notes "cdrom" = Ok (m'', k'') /\
  add m'' (mkImage (L "/in") (L "d.vmdk") 1 1) "harddisk" = Err EValueTooHigh.
Proof.
  eexists _, _, _. split; [exact (managed_orderly _ _ _ base_orderly history2)|].
  split; [apply plain_addresses_ok; vm_compute; reflexivity|]. split; [exact step3|].
  split; [intros [i Hi]; apply (in_map fst) in Hi; vm_compute in Hi; intuition discriminate|].
  do 4 (split; [vm_compute; reflexivity|]). vm_compute. reflexivity.
Qed.
Example C31_open_controller_example : hw_reachable V1 (m_hw base) /\ identified env0 (m_hw base) /\
  find_open_controller env0 base (L "scsi") = Ok (Some (L "3", L "0:0")) /\
  find_open_controller env0 m2 (L "ide") = Ok None /\
  find_open_controller env0 m3 (L "ide") = Ok (Some (L "6", L "1:1")).
Proof.
  split; [exact base_reachable|]. split; [exact (o_named _ _ base_orderly)|].
  do 2 (split; [vm_compute; reflexivity|]). vm_compute. reflexivity.
Qed.
Example C31_new_controller_example : exists m' k,
  add_controller_device env0 base (L "ide") None None None = Ok (m', k) /\
  shown (m_hw m') k ADDRESS None = Some (Ok (Some (VStr (L "1")))) /\
  add_controller_device env0 m' (L "ide") None None None = Err EValueTooHigh.
Proof. eexists _, _. do 2 (split; [vm_compute; reflexivity|]). vm_compute. reflexivity. Qed.

(** ** What does not hold *)

(** A file that is added without an identifier gets its name as one, even if another File
    has this identifier; so the condition of C30_add_file cannot be left out. *)
Definition m6 : vmd := match add_file_run yes env0 base notes (Some (L "readme")) with Ok m => m | Err _ => base end.
Definition readme : image := mkImage (L "/in") (L "readme") 7 7.
Lemma no_file_orderly : orderly env0 m6.
Proof.
  apply (C30_add_file yes env0 base notes (Some (L "readme")) m6 base_orderly).
  - split; [intros H; vm_compute in H; intuition discriminate|]. intros s E. injection E as <-. intros H. vm_compute in H. intuition discriminate.
  - split; [discriminate|]. intros s f _ [].
  - vm_compute. reflexivity.
Qed.
Theorem C30_new_id_refuted : exists m', orderly env0 m6 /\ add_file_run yes env0 m6 readme None = Ok m' /\
  map (fun f => get_attr f (FILE_ID V1)) (files V1 m') = [Some (L "readme"); Some (L "readme")] /\ ~ linked V1 m'.
Proof.
  eexists. split; [exact no_file_orderly|]. split; [vm_compute; reflexivity|]. split; [vm_compute; reflexivity|].
  intros H. destruct (l_file_ids _ _ H) as [_ N]. vm_compute in N. inversion N as [|? ? N1 _]. apply N1. now left.
Qed.

(** A new identifier for a File that has a Disk: the Disk still has the old one. *)
Theorem C30_changed_id_refuted : exists m', orderly env0 m1 /\
  add_file_run yes env0 m1 vmdk (Some (L "other")) = Ok m' /\
  summary m' = ([(Some (L "vm.vmdk"), Some (L "other"))], [(Some (L "vm.vmdk"), Some (L "vm.vmdk"))], snd (summary m1)) /\ ~ linked V1 m'.
Proof.
  eexists. split; [exact (managed_orderly _ _ _ base_orderly history1)|]. split; [vm_compute; reflexivity|]. split; [vm_compute; reflexivity|].
  intros H. pose proof (l_disk_files _ _ H) as D. vm_compute in D.
  edestruct D as (f & [<-|[]] & Hf); [now left|reflexivity|]. discriminate Hf.
Qed.

(** The identifier of the File is taken for the new Disk, even if another Disk has it. *)
Definition attrs_elem (tag : str) (l : list (str * string)) : elem := Elem tag (map (fun x => (fst x, L (snd x))) l) None None [].
Definition f7 : elem := attrs_elem (FILE V1) [(FILE_HREF V1, "a.vmdk"%string); (FILE_ID V1, "file1"%string)].
Definition d7 : elem := attrs_elem (DISK V1) [(DISK_ID V1, "data.vmdk"%string); (DISK_FILE_REF V1, "file1"%string)].
Definition m7 : vmd := mkVmd (Elem (OVF_NS V1 ++ L "References") [] None None [f7]) (Some (Elem (DISK_SECTION V1) [] None None [d7]))
  base_hw [(L "a.vmdk", L "/in")].
Lemma one_unique : forall k e x, get_attr e k = Some x -> unique_attr k [e].
Proof. intros k e x H. split; [intros e' [<-|[]]; now exists x|]. repeat constructor. intros []. Qed.
Lemma one_orderly : forall m f d, m_hw m = base_hw -> m_sources m = [(L "a.vmdk", L "/in")] -> files V1 m = [f] -> disks V1 m = [d] ->
  get_attr f (FILE_HREF V1) = Some (L "a.vmdk") -> get_attr f (FILE_ID V1) = Some (L "file1") ->
  get_attr d (DISK_ID V1) = Some (L "data.vmdk") -> get_attr d (DISK_FILE_REF V1) = Some (L "file1") -> orderly env0 m.
Proof.
  intros m f d H S F D A1 A2 A3 A4.
  assert (K : kept V1 base_hw) by exact (reachable_ids V1 _ base_reachable).
  assert (N : forall k i p v, In (k, i) base_hw -> ~ own (i_props i) HOST_RESOURCE p v) by (apply no_host_ok; vm_compute; reflexivity).
  constructor; change (e_ver env0) with V1; rewrite ?H.
  - exact K.
  - apply identified_ok; [exact K|vm_compute; reflexivity].
  - split; rewrite ?F, ?D, ?H; try (eapply one_unique; eassumption).
    + intros d0 r [<-|[]] Hr. exists f. split; [now left|congruence].
    + intros k i p s id Hi Ho. exfalso. exact (N k i p _ Hi Ho).
    + intros k i p s id Hi Ho. exfalso. exact (N k i p _ Hi Ho).
  - intros k i Hi. rewrite H in Hi. split; [intros p q v w Ho|intros p v Ho]; exfalso; exact (N k i p _ Hi Ho).
  - split; rewrite ?F, ?D; intros x id [<-|[]] Hr.
    + rewrite A2 in Hr. injection Hr as <-. vm_compute. intuition discriminate.
    + rewrite A3 in Hr. injection Hr as <-. vm_compute. intuition discriminate.
  - intros x x' r. rewrite D. intros [<-|[]] [<-|[]] _ _. reflexivity.
  - intros k i p s k' i' p' s' Hi Ho. rewrite H in Hi. exfalso. exact (N k i p _ Hi Ho).
  - unfold sourced. rewrite S, F. split; [repeat constructor; intros []|]. intros x. cbn [dget]. destruct (str_eqb x (L "a.vmdk")) eqn:Ex.
    + apply str_eqb_eq in Ex as ->. split; [intros _; exists f; split; [now left|exact A1]|intros _; eexists; reflexivity].
    + split; [intros [y Fy]; discriminate Fy|]. intros (g & [<-|[]] & Hg). rewrite A1 in Hg. injection Hg as <-.
      rewrite str_eqb_refl in Ex. discriminate Ex.
Qed.
Lemma m7_orderly : orderly env0 m7.
Proof. apply (one_orderly m7 f7 d7); vm_compute; reflexivity. Qed.
Theorem C30_disk_id_refuted : exists m' k, orderly env0 m7 /\ add m7 data "harddisk" = Ok (m', k) /\
  map (fun d => get_attr d (DISK_ID V1)) (disks V1 m') = [Some (L "data.vmdk"); Some (L "data.vmdk")] /\ ~ linked V1 m'.
Proof.
  eexists _, _. split; [exact m7_orderly|]. split; [vm_compute; reflexivity|]. split; [vm_compute; reflexivity|].
  intros H. destruct (l_disk_ids _ _ H) as [_ N]. vm_compute in N. inversion N as [|? ? N1 _]. apply N1. now left.
Qed.

(** A drive that exists in a named profile only is not found, and stays without its Disk. *)
Definition drive_item (attrs : list (str * str)) (id host parent a : string) : elem :=
  an_item attrs ([rasd "AddressOnParent" a; rasd "ElementName" "Drive"] ++ (if String.eqb host ""%string then [] else [rasd "HostResource" host]) ++
    [rasd "InstanceID" id; rasd "Parent" parent; rasd "ResourceType" "17"]).
Definition hw8 : hw := hw_of [cpu_item; ctrl_item "2" "5" "0"; drive_item [(ITEM_CONFIG V1, L "big")] "8" "ovf:/disk/vm.vmdk" "2" "0"].
Definition m8 : vmd := mkVmd (m_refs m1) (m_disks m1) hw8 (m_sources m1).
Lemma hw8_reachable : hw_reachable V1 hw8.
Proof. unfold hw8. match goal with |- hw_reachable _ (hw_of ?l) => apply (hw_of_reachable l) end. eexists. vm_compute. reflexivity. Qed.
Lemma host_linked : forall m m', linked V1 m -> m_refs m' = m_refs m -> m_disks m' = m_disks m ->
  forallb (fun ki => forallb (fun nd => negb (str_eqb (fst nd) HOST_RESOURCE) ||
    forallb (fun vs => value_eqb (fst vs) (VStr (L "ovf:/disk/vm.vmdk"))) (snd nd)) (i_props (snd ki))) (m_hw m') = true ->
  existsb (fun d => opt_eqb (get_attr d (DISK_ID V1)) (Some (L "vm.vmdk"))) (disks V1 m') = true -> linked V1 m'.
Proof.
  intros m m' [L1 L2 L3 L4 _ _] HR HD B X.
  assert (V : forall k i p v, In (k, i) (m_hw m') -> own (i_props i) HOST_RESOURCE p v -> v = VStr (L "ovf:/disk/vm.vmdk")).
  { intros k i p v Hi (d & s & H1 & H2 & H3).
    rewrite forallb_forall in B. specialize (B _ Hi). cbn [snd] in B. rewrite forallb_forall in B. specialize (B _ H1). cbn [fst snd] in B.
    rewrite str_eqb_refl in B. cbn [negb orb] in B. rewrite forallb_forall in B. specialize (B _ H2). now apply PsetProofs.value_eqb_eq in B. }
  apply existsb_exists in X as (d & Hd & Ed). apply opt_eqb_eq in Ed.
  assert (F : files V1 m' = files V1 m) by (unfold files; now rewrite HR).
  assert (D : disks V1 m' = disks V1 m) by (unfold disks; now rewrite HD).
  split; rewrite ?F; try (rewrite D; assumption); try assumption.
  - intros k i p s id Hi Ho [R|R]; apply (V k i p) in Ho; try exact Hi; injection Ho as ->.
    + apply (app_inv_head (DISK_REF V1) (L "vm.vmdk") id) in R as <-. now exists d.
    + discriminate R.
  - intros k i p s id Hi Ho [R|R]; apply (V k i p) in Ho; try exact Hi; injection Ho as ->; discriminate R.
Qed.
Lemma m1_linked : linked V1 m1.
Proof. exact (o_linked env0 m1 (managed_orderly env0 base m1 base_orderly history1)). Qed.
Lemma m8_refs : m_refs m8 = m_refs m1. Proof. vm_compute. reflexivity. Qed.
Lemma m8_sec : m_disks m8 = m_disks m1. Proof. vm_compute. reflexivity. Qed.
Lemma m8_hosts : forallb (fun ki => forallb (fun nd => negb (str_eqb (fst nd) HOST_RESOURCE) ||
    forallb (fun vs => value_eqb (fst vs) (VStr (L "ovf:/disk/vm.vmdk"))) (snd nd)) (i_props (snd ki))) (m_hw m8) = true.
Proof. vm_compute. reflexivity. Qed.
Lemma m8_disks : existsb (fun d => opt_eqb (get_attr d (DISK_ID V1)) (Some (L "vm.vmdk"))) (disks V1 m8) = true.
Proof. vm_compute. reflexivity. Qed.
Lemma m8_linked : hw_reachable V1 (m_hw m8) /\ linked V1 m8.
Proof.
  split; [exact hw8_reachable|].
  exact (host_linked m1 m8 m1_linked m8_refs m8_sec m8_hosts m8_disks).
Qed.
Theorem C30_hidden_drive_refuted : exists m', hw_reachable V1 (m_hw m8) /\ linked V1 m8 /\
  remove_file_run yes env0 m8 (Some (L "vm.vmdk")) None = Ok m' /\ disks V1 m' = [] /\
  shown (m_hw m') (L "8") HOST_RESOURCE (Some (L "big")) = Some (Ok (Some (VStr (L "ovf:/disk/vm.vmdk")))).
Proof.
  eexists. split; [exact (proj1 m8_linked)|]. split; [exact (proj2 m8_linked)|]. do 2 (split; [vm_compute; reflexivity|]). vm_compute. reflexivity.
Qed.

(** A file that already has a drive on the controller keeps its address, whatever is asked
    for. *)
Theorem C31_wish_refuted : exists m', orderly env0 m1 /\
  add_disk_worker yes env0 100 ide m1 vmdk (L "harddisk") None (Some (L "ide")) None (Some (L "0:1")) None None = Ok (m', L "4") /\
  shown (m_hw m') (L "4") ADDRESS_ON_PARENT None = Some (Ok (Some (VStr (L "0")))).
Proof.
  eexists. split; [exact (managed_orderly _ _ _ base_orderly history1)|]. split; vm_compute; reflexivity.
Qed.

(** A given address can be the one of a drive that exists in a named profile only. *)
Definition m9 : vmd := mkVmd (m_refs base) None
  (hw_of [cpu_item; ctrl_item "2" "5" "0"; drive_item [(ITEM_CONFIG V1, L "big")] "8" "" "2" "0"]) [].
Lemma m9_orderly : orderly env0 m9.
Proof.
  apply empty_orderly; [|vm_compute; reflexivity|vm_compute; reflexivity].
  match goal with |- hw_reachable _ (hw_of ?l) => apply (hw_of_reachable l) end. eexists. vm_compute. reflexivity.
Qed.
Theorem C31_given_address_refuted : exists m', orderly env0 m9 /\
  add_disk_worker yes env0 100 ide m9 vmdk (L "harddisk") None (Some (L "ide")) None (Some (L "0:0")) None None = Ok (m', L "3") /\
  (forall k, In k [L "3"; L "8"] -> shown (m_hw m') k PARENT (Some (L "big")) = Some (Ok (Some (VStr (L "2")))) /\
     shown (m_hw m') k ADDRESS_ON_PARENT (Some (L "big")) = Some (Ok (Some (VStr (L "0"))))).
Proof.
  eexists. split; [exact m9_orderly|]. split; [vm_compute; reflexivity|].
  intros k [<-|[<-|[]]]; (split; vm_compute; reflexivity).
Qed.

(** A drive with different addresses in different profiles does not count as being at any
    of them: the automatic choice can be an address that is in use in a profile. *)
Definition m10 : vmd := mkVmd (m_refs base) None
  (hw_of [cpu_item; ctrl_item "2" "5" "0"; drive_item [] "8" "" "2" "0"; drive_item [(ITEM_CONFIG V1, L "big")] "8" "" "2" "1"]) [].
Lemma m10_orderly : orderly env0 m10.
Proof.
  apply empty_orderly; [|vm_compute; reflexivity|vm_compute; reflexivity].
  match goal with |- hw_reachable _ (hw_of ?l) => apply (hw_of_reachable l) end. eexists. vm_compute. reflexivity.
Qed.
Theorem C31_free_in_all_profiles_refuted : exists m', orderly env0 m10 /\ add m10 vmdk "harddisk" = Ok (m', L "3") /\
  (forall k, In k [L "3"; L "8"] -> shown (m_hw m') k PARENT None = Some (Ok (Some (VStr (L "2")))) /\
     shown (m_hw m') k ADDRESS_ON_PARENT None = Some (Ok (Some (VStr (L "0"))))).
Proof.
  eexists. split; [exact m10_orderly|]. split; [vm_compute; reflexivity|].
  intros k [<-|[<-|[]]]; (split; vm_compute; reflexivity).
Qed.
