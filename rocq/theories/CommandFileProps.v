(** Whole runs of add-file, add-disk and remove-file (C72): the package is read, changed and
    written; whoever opens the output finds the file and the drive that were asked for, or no
    longer finds them, and all else as it was. *)
From Coq Require Import List Ascii Bool ZArith String.
Import ListNotations.
From Verif Require Import PyBase PyBaseProofs PyDict ValidationModel XmlModel XmlSpec XmlProps NamesModel ItemModel ItemSpec ItemProps GenerateSpec HardwareModel HardwareSpec HardwareProps EnvPropModel EditPropModel HardwareIdProofs CountSpec FindSpec RereadSpec
  ProfileModel ProfileSpec ProfileProps NetworkModel NetworkSpec DriveModel DriveSpec DriveProps InfoModel PlatformModel RefreshModel RefreshSpec ManifestSpec RawModel PathModel PathSpec TarModel TarSpec TarProps
  OvfWriteModel OvfWriteSpec OvfWriteProps OpenModel OpenSpec OpenProps SaveModel SaveSpec SaveProps CommandModel CommandSpec CommandProps CommandFileModel CommandFileSpec.
From Verif Require Import CountProps.
From Verif Require SaveProofs CommandFileProofs CommandFileProofs2 CommandHwProps CommandProofs2.
Local Open Scope nat_scope.

Section Runs.
Variables (E : env) (digest : str -> str -> str) (print : elem -> str) (parse : str -> option elem) (capacity : str -> result str) (fuel : nat).
Variables (w w' : world) (d : list str) (u input : str) (same : bool) (output : str) (o : ovf).
Variables (d2 : list str) (u2 : str).
(** The output can be opened, in another working directory, and is in order. *)
Let opens (o2 : ovf) : Prop := factory E digest parse w' (path_of (d2 ++ [u2])) (destination input output) [] = Ok o2 /\ orderly (env_of E o2) (vmd_of o2).
Let v := o_version o.
Let EO := env_of E o.
Let m := vmd_of o.
(** The files once the input is open (only the working directory differs, C67) *)
Let w1 := after_opening w (path_of (d ++ [u])) input.
Let run (edit : ovf -> result ovf) : Prop :=
  package_run E digest print parse capacity fuel edit w w' d u input same output o /\ (forall c, In c (d2 ++ [u2]) -> proper c) /\ orderly EO m.

(** add-file: the Files [R] with this name or this identifier (there is one at most) are replaced
    by the new File, which is else put at the end or among the others; it has the name, and the
    identifier that was asked for, or that of the File it replaces, or its name.  The content is
    that of the user's file.  The hardware, the Disks and the other Files are the same, and
    the other Files have the same content. *)
Theorem C72_add_file : forall agree im file_id, run (add_file_package agree E im file_id) -> no_slash im file_id -> ids_agree v m im file_id ->
  exists o2 f A R B, opens o2 /\ written_hardware E o o2 (o_hardware o) /\ same_disks v (disks v m) (disks v (vmd_of o2)) /\
    files v m = A ++ R ++ B /\ same_files v (A ++ f :: B) (files v (vmd_of o2)) /\
    (forall x, In x R <-> In x (files v m) /\ (get_attr x (FILE_HREF v) = Some (im_name im) \/ exists s, file_id = Some s /\ get_attr x (FILE_ID v) = Some s)) /\
    get_attr f (FILE_HREF v) = Some (im_name im) /\
    (forall s, file_id = Some s -> get_attr f (FILE_ID v) = Some s) /\
    (file_id = None -> forall x, In x R -> get_attr f (FILE_ID v) = get_attr x (FILE_ID v)) /\
    (file_id = None -> R = [] -> get_attr f (FILE_ID v) = Some (im_name im)) /\
    (forall h data, stored w' o2 h data <->
      (h = im_name im /\ content w1 (OnDisk (im_dir im) (im_name im)) = Some data) \/
      (h <> im_name im /\ stored w1 o h data /\ exists x, In x (A ++ B) /\ get_attr x (FILE_HREF v) = Some h)).
Proof. intros agree im file_id (RUN & PD & O) NS IA. exact (CommandFileProofs2.add_file_out E digest print parse capacity fuel w w' d u input same output o d2 u2 PD O agree im file_id RUN NS IA). Qed.

(** remove-file: the File is not in the output, and neither is its content, nor the Disk that
    refers to it; a hard disk drive that has it is gone, a CD-ROM drive that has it is there and
    empty, with all its other values.  All other Files, contents, Disks and devices are the
    same, and there is no other device. *)
Theorem C72_remove_file : forall agree path id, run (remove_file_package agree E path id) ->
  exists o2 f A B C X D hw', opens o2 /\ written_hardware E o o2 hw' /\
    files v m = A ++ f :: B /\ same_files v (A ++ B) (files v (vmd_of o2)) /\
    (forall p, path = Some p -> get_attr f (FILE_HREF v) = Some p) /\ (forall s, id = Some s -> get_attr f (FILE_ID v) = Some s) /\
    disks v m = C ++ X ++ D /\ same_disks v (C ++ D) (disks v (vmd_of o2)) /\
    (forall x, In x X <-> In x (disks v m) /\ get_attr x (DISK_FILE_REF v) = get_attr f (FILE_ID v)) /\
    (forall k i, In (k, i) (o_hardware o) -> (forall p s, own (i_props i) HOST_RESOURCE p (VStr s) -> ~ file_of v m s f) -> kept_in EO (o_hardware o2) k i) /\
    (forall k i p s, In (k, i) (o_hardware o) -> own (i_props i) HOST_RESOURCE p (VStr s) -> file_of v m s f ->
       (only_value (i_props i) RESOURCE_TYPE (VStr (L "17")) /\ ~ taken (o_hardware o2) k) \/
       (only_value (i_props i) RESOURCE_TYPE (VStr (L "15")) /\ exists j, In (k, j) (o_hardware o2) /\
          (forall q x, ~ own (i_props j) HOST_RESOURCE q x) /\
          (forall n q x, n <> HOST_RESOURCE -> ~ text_property v n -> (holds (i_props j) n q x <-> holds (i_props i) n q x)))) /\
    (forall k, taken (o_hardware o2) k -> taken (o_hardware o) k) /\
    (forall h data, stored w' o2 h data <-> stored w1 o h data /\ get_attr f (FILE_HREF v) <> Some h).
Proof. intros agree path id (RUN & PD & O). exact (CommandFileProofs2.remove_file_out E digest print parse capacity fuel w w' d u input same output o d2 u2 PD O agree path id RUN). Qed.

(** add-disk: the output has the File, with the content of the user's file, and a drive of the
    asked type that refers to it, through a Disk if it is a hard disk; the drive is attached to a
    controller of the asked type.  One File and one Disk at most are replaced.  All other devices
    are the same, and there is no other; the other Files have the same content. *)
Theorem C72_add_disk : forall agree fuel2 guess im dt file_id controller subtype address diskname desc,
  run (add_disk_package agree E fuel2 guess im dt file_id controller subtype address diskname desc) ->
  no_slash im file_id -> (dt = L "harddisk" -> disk_ids_apart v m im file_id) -> (forall c, controller = Some c -> known_type c) -> known_type (guess (o_platform o) dt) ->
  exists o2 hw' lf f ld k j s t ck cj ct, opens o2 /\ written_hardware E o o2 hw' /\
    replaced (files v m) lf f /\ same_files v lf (files v (vmd_of o2)) /\ get_attr f (FILE_HREF v) = Some (im_name im) /\
    same_disks v ld (disks v (vmd_of o2)) /\
    In (k, j) (o_hardware o2) /\ present EO j None /\ dget str_eqb dt RES_MAP = Some t /\ only_value (i_props j) RESOURCE_TYPE (VStr t) /\
    only_value (i_props j) HOST_RESOURCE (VStr s) /\ (exists f2, file_of v (vmd_of o2) s f2 /\ alike_but [FILE_SIZE v] f f2) /\
    (dt = L "harddisk" -> exists dk, replaced (disks v m) ld dk /\ exists dk2, disk_of v (vmd_of o2) s dk2 /\ alike_but [DISK_CAPACITY v; DISK_CAP_UNITS v] dk dk2) /\
    (dt <> L "harddisk" -> removed (disks v m) ld) /\
    only_value (i_props j) PARENT (VStr ck) /\ In (ck, cj) (o_hardware o2) /\ (ck <> k -> is_a ct cj) /\ (forall c, controller = Some c -> ct = c) /\
    (forall k' i, k' <> k -> k' <> ck -> In (k', i) (o_hardware o) -> kept_in EO (o_hardware o2) k' i) /\
    (forall k' j', k' <> k -> k' <> ck -> In (k', j') (o_hardware o2) -> exists i, In (k', i) (o_hardware o) /\ same_reports EO i j') /\
    (forall h data, stored w' o2 h data <->
      (h = im_name im /\ content w1 (OnDisk (im_dir im) (im_name im)) = Some data) \/
      (h <> im_name im /\ stored w1 o h data /\ exists x, In x lf /\ get_attr x (FILE_HREF v) = Some h)).
Proof.
  intros agree fuel2 guess im dt file_id controller subtype address diskname desc (RUN & PD & O) NS DA KC KG.
  exact (CommandFileProofs2.add_disk_out E digest print parse capacity fuel w w' d u input same output o d2 u2 PD O agree fuel2 guess im dt file_id controller subtype address diskname desc RUN NS DA KC KG).
Qed.
End Runs.
Print Assumptions C72_add_file.
Print Assumptions C72_remove_file.
Print Assumptions C72_add_disk.

(** ** A package with a disk and an empty drive *)
Definition cf_section : elem := Elem (VIRTUAL_HW_SECTION V1) [] None None
  [Elem (INFO V1) [] (Some (L "hardware")) None [];
   an_item [] [rasd "InstanceID" "1"; rasd "ResourceType" "3"; rasd "VirtualQuantity" "4"];
   an_item [] [rasd "Address" "0"; rasd "InstanceID" "2"; rasd "ResourceType" "5"];
   an_item [] [rasd "AddressOnParent" "0"; rasd "HostResource" "ovf:/disk/vmdisk1"; rasd "InstanceID" "3"; rasd "Parent" "2"; rasd "ResourceType" "17"];
   an_item [] [rasd "AddressOnParent" "1"; rasd "InstanceID" "4"; rasd "Parent" "2"; rasd "ResourceType" "17"]].
Definition cf_system : elem := Elem (VIRTUAL_SYSTEM V1) [] None None [cm_product; cf_section].
Definition cf_root : elem := Elem (envelope_tag V1) [] None None [cm_refs; sv_disks; sv_deploy; cf_system].
Definition cf_image : image := mkImage (L "/home") (L "c.txt") 3 1073741824.
Definition cf_open : result ovf := factory env0 sv_digest (fun _ => Some cf_root) ex_world (L "/tmp/cot") (L "/home/a.ova") [].
Definition cf_edited (edit : ovf -> result ovf) : elem :=
  match (do o <- cf_open; do o1 <- edit o; prepare env0 sv_capacity 9 (after_opening ex_world (L "/tmp/cot") (L "/home/a.ova")) o1) with
  | Ok (e, _, _) => xml_reindent e 0
  | Err _ => cf_root
  end.
Definition cf_parse (edit : ovf -> result ovf) (t : str) : option elem := if str_eqb t (L "old") then Some cf_root else Some (cf_edited edit).
Definition cf_package : ovf := some_package cf_open.
Local Notation cf_file := (add_file_package yes env0 cf_image None).
Local Notation cf_remove := (remove_file_package yes env0 (Some (L "sub/d.vmdk")) None).
Local Notation cf_disk := (add_disk_package yes env0 100 (fun _ => ide) cf_image (L "harddisk") None (Some (L "ide")) None (Some (L "0:1")) None None).
Local Notation cf_run edit := (command env0 sv_digest sv_print (cf_parse edit) sv_capacity 9 edit ex_world (path_of ([L "tmp"] ++ [L "cot"])) (L "/home/a.ova") false (L "/out/b.ovf")).
Local Notation cf_again edit := (some_package (factory env0 sv_digest (cf_parse edit) (fst (cf_run edit)) (L "/tmp/new") (L "/out/b.ovf") [])).

Definition hd_elem (l : list elem) : elem := hd (Elem [] [] None None []) l.
(** What each device refers to *)
Definition hosts (h : hw) : list (str * profile * value) :=
  flat_map (fun ki => flat_map (fun nd : str * vdict => if str_eqb (fst nd) HOST_RESOURCE then flat_map (fun vs : value * pset => map (fun p => (fst ki, p, fst vs)) (snd vs)) (snd nd) else []) (i_props (snd ki))) h.
Lemma hosts_all : forall h k i p x, In (k, i) h -> own (i_props i) HOST_RESOURCE p x -> In (k, p, x) (hosts h).
Proof.
  intros h k i p x Hi (dd & ss & H1 & H2 & H3). unfold hosts. apply in_flat_map. exists (k, i). split; [exact Hi|]. cbn [fst snd]. apply in_flat_map. exists (HOST_RESOURCE, dd). split; [exact H1|]. cbn [fst snd].
  rewrite str_eqb_refl. apply in_flat_map. exists (x, ss). split; [exact H2|]. cbn [fst snd]. apply in_map_iff. now exists p.
Qed.
Lemma one_orderly : forall E m f dk k, e_ver E = V1 -> hw_reachable V1 (m_hw m) ->
  forallb (fun ki => match recs (snd ki) (INSTANCE_ID V1) with [None] => true | _ => false end) (m_hw m) = true ->
  hosts (m_hw m) = [(k, None, VStr (L "ovf:/disk/vmdisk1"))] -> files V1 m = [f] -> disks V1 m = [dk] ->
  get_attr f (FILE_ID V1) = Some (L "file1") -> get_attr f (FILE_HREF V1) = Some (L "sub/d.vmdk") ->
  get_attr dk (DISK_ID V1) = Some (L "vmdisk1") -> get_attr dk (DISK_FILE_REF V1) = Some (L "file1") ->
  map fst (m_sources m) = [L "sub/d.vmdk"] -> orderly E m.
Proof.
  intros E m f dk k V R H1 H2 HF HD F1 F2 D1 D2 HS.
  assert (HO : forall k0 i p x, In (k0, i) (m_hw m) -> own (i_props i) HOST_RESOURCE p x -> k0 = k /\ x = VStr (L "ovf:/disk/vmdisk1")).
  { intros k0 i p x Hi Ho. pose proof (hosts_all _ _ _ _ _ Hi Ho) as Q. rewrite H2 in Q. destruct Q as [Q|[]]. injection Q as <- _ <-. now split. }
  assert (K : kept V1 (m_hw m)) by exact (reachable_ids V1 _ R).
  assert (ID : forall k0 i, In (k0, i) (m_hw m) -> own (i_props i) (INSTANCE_ID V1) None (VStr k0)).
  { intros k0 i Hi. rewrite forallb_forall in H1. specialize (H1 _ Hi). cbn [snd] in H1. destruct (recs i (INSTANCE_ID V1)) as [|p [|? ?]] eqn:X; try discriminate; [|destruct p; discriminate]. destruct p; [discriminate|].
    assert (Hr : In None (recs i (INSTANCE_ID V1))) by (rewrite X; now left). apply recs_In in Hr as [y Hy]. destruct K as [_ K]. destruct (K k0 i Hi) as [_ Kv]. now rewrite (Kv None y Hy) in Hy. }
  assert (UA : forall e a x, get_attr e a = Some x -> unique_attr a [e]).
  { intros e a x H. split; [intros e0 [<-|[]]; now exists x|]. repeat constructor. intros []. }
  constructor; rewrite ?V.
  - exact K.
  - intros k0 i Hi. rewrite V. exists None. exact (ID k0 i Hi).
  - constructor; rewrite ?HF, ?HD.
    + exact (UA _ _ _ F1).
    + exact (UA _ _ _ F2).
    + exact (UA _ _ _ D1).
    + intros d0 r [<-|[]] Hr. exists f. split; [now left|]. congruence.
    + intros k0 i p s id Hi Ho HR. destruct (HO _ _ _ _ Hi Ho) as [_ Q]. injection Q as ->. exists dk. split; [now left|]. rewrite D1. f_equal. destruct HR as [HR|HR]; vm_compute in HR.
      * injection HR as <-. reflexivity.
      * discriminate HR.
    + intros k0 i p s id Hi Ho HR. destruct (HO _ _ _ _ Hi Ho) as [_ Q]. injection Q as ->. exfalso. destruct HR as [HR|HR]; vm_compute in HR; discriminate HR.
  - intros k0 i Hi. split.
    + intros p q x y Hx Hy. destruct (HO _ _ _ _ Hi Hx) as [_ ->]. destruct (HO _ _ _ _ Hi Hy) as [_ ->]. reflexivity.
    + intros p x Hx. left. exists (VStr k0). rewrite V. exact (ID k0 i Hi).
  - split; rewrite ?HF, ?HD; intros x id [<-|[]] Hx; [rewrite F1 in Hx|rewrite D1 in Hx]; injection Hx as <-; vm_compute; intuition discriminate.
  - intros a b r Ha Hb _ _. rewrite HD in Ha, Hb. destruct Ha as [<-|[]], Hb as [<-|[]]. reflexivity.
  - intros k0 i p s k1 i1 p1 s1 Hi Ho Hi1 Ho1 _. destruct (HO _ _ _ _ Hi Ho) as [-> _]. destruct (HO _ _ _ _ Hi1 Ho1) as [-> _]. reflexivity.
  - split; [rewrite HS; repeat constructor; intros []|]. intros h. rewrite (CommandFileProofs2.dget_keys (m_sources m) h), HS, HF. split.
    + intros [<-|[]]. exists f. split; [now left|exact F2].
    + intros (e & [<-|[]] & He). rewrite F2 in He. injection He as <-. now left.
Qed.
Lemma cf_opened : forall edit, factory env0 sv_digest (cf_parse edit) ex_world (path_of ([L "tmp"] ++ [L "cot"])) (L "/home/a.ova") (L "/out/b.ovf") = Ok cf_package.
Proof. intros edit. vm_compute. reflexivity. Qed.
Lemma cf_version : o_version cf_package = V1. Proof. vm_compute. reflexivity. Qed.
Lemma cf_reachable : hw_reachable V1 (o_hardware cf_package).
Proof. rewrite <- cf_version. pose proof (CommandProofs2.factory_reads _ _ _ _ _ _ _ _ (cf_opened Ok)) as H. exact (HardwareSpec.H_read _ (env_of env0 cf_package) _ _ eq_refl H). Qed.
Lemma cf_orderly : orderly (env_of env0 cf_package) (vmd_of cf_package).
Proof.
  apply (one_orderly _ _ (hd_elem (echildren cm_refs)) (hd_elem (echildren sv_disks)) (L "3")); [exact cf_version|exact cf_reachable|..]; vm_compute; reflexivity.
Qed.
Local Notation cf_wd := (path_of ([L "tmp"] ++ [L "cot"])).
Definition cf_w1 : world := after_opening ex_world cf_wd (L "/home/a.ova").
Lemma cf_reads : read_hardware (env_of env0 cf_package) (o_hardware_section cf_package) = Ok (o_hardware cf_package).
Proof. exact (CommandProofs2.factory_reads _ _ _ _ _ _ _ _ (cf_opened Ok)). Qed.
Lemma cf_names : copyable cf_w1 [L "out"] (L "b.ovf") (L "b.mf") ex_names ex_refs ex_data.
Proof.
  assert (P1 : plain_name (L "sub/d.vmdk") [L "sub"; L "d.vmdk"]) by (split; [discriminate|]; split; [intros c [<-|[<-|[]]]; repeat split; vm_compute; intuition discriminate|reflexivity]).
  assert (P2 : plain_name (L "c.txt") [L "c.txt"]) by (split; [discriminate|]; split; [intros c [<-|[]]; repeat split; vm_compute; intuition discriminate|reflexivity]).
  constructor.
  + repeat constructor; vm_compute; intuition discriminate.
  + repeat constructor; vm_compute; intuition discriminate.
  + intros h. reflexivity.
  + intros h [<-|[<-|[]]].
    * split; [now exists [L "sub"; L "d.vmdk"]|]. repeat split; vm_compute; intuition discriminate.
    * split; [now exists [L "c.txt"]|]. repeat split; vm_compute; intuition discriminate.
  + intros h r [X|[X|[]]]; injection X as <- <-; vm_compute; reflexivity.
  + intros h d n [X|[X|[]]]; [discriminate X|]. injection X as <- <- <-. vm_compute. intuition discriminate.
  + intros h t n [X|[X|[]]]; [|discriminate X]. injection X as <- <- <-. reflexivity.
Qed.
Lemma cf_none : copyable cf_w1 [L "out"] (L "b.ovf") (L "b.mf") [] [] ex_data.
Proof. constructor; [constructor|constructor|intros h; reflexivity|intros h []|intros h r []|intros h d n []|intros h t n []]. Qed.
Lemma cf_fits : forall o1 names refs, o_version o1 = V1 -> names_in V1 (o_references o1) = names -> o_files o1 = refs -> hw_reachable V1 (o_hardware o1) ->
  forallb (CommandHwProps.simple_b (env_of env0 o1)) (o_hardware o1) = true -> CommandHwProps.plain_b o1 = true ->
  copyable cf_w1 [L "out"] (L "b.ovf") (L "b.mf") names refs ex_data -> can_be_written env0 cf_w1 cf_wd (L "/out/b.ovf") o1.
Proof.
  intros o1 names refs F1 F2 F3 F4 F5 F6 F7. constructor.
  - apply (CommandHwProps.simple_ok (env_of env0 o1)); [|exact F5]. change (hw_reachable (o_version o1) (o_hardware o1)). now rewrite F1.
  - rewrite F1. intros x c Hx Ix Hc. unfold CommandHwProps.plain_b in F6. rewrite forallb_forall in F6. specialize (F6 x Hx). apply orb_prop in F6 as [F6|F6].
    + apply negb_true_iff in F6. unfold is_item_elem in F6. destruct Ix as [Ix|[Ix|Ix]]; rewrite Ix in F6; discriminate F6.
    + rewrite forallb_forall in F6. specialize (F6 c Hc). apply andb_prop in F6 as [A B]. split; [now destruct (echildren c)|now apply mem_str_In].
  - rewrite F1. intros F. discriminate F.
  - apply (fits_descriptor _ _ _ _ [L "out"] (L "b") ex_data); [reflexivity|discriminate| | | |].
    + intros c [<-|[]]. repeat split; vm_compute; intuition discriminate.
    + split; [vm_compute; intuition discriminate|]. exists "b"%char. split; [now left|discriminate].
    + vm_compute. intuition discriminate.
    + rewrite F1, F2, F3. exact F7.
Qed.
(** All that is checked of the result of a command *)
Definition checked (edit : ovf -> result ovf) (names : list str) (refs : list (str * ref)) : Prop :=
  match edit cf_package with
  | Ok o1 => o_version o1 = V1 /\ names_in V1 (o_references o1) = names /\ o_files o1 = refs /\
      forallb (CommandHwProps.simple_b (env_of env0 o1)) (o_hardware o1) = true /\ CommandHwProps.plain_b o1 = true
  | Err _ => True
  end.
Lemma cf_runs : forall edit names refs, (forall o1, edit cf_package = Ok o1 -> exists new m', o1 = package_of_vmd cf_package new m' /\ CommandFileProofs.shifts (o_version cf_package) (vmd_of cf_package) m') ->
  checked edit names refs -> copyable cf_w1 [L "out"] (L "b.ovf") (L "b.mf") names refs ex_data ->
  etag (cf_edited edit) = envelope_tag V1 -> snd (cf_run edit) = Ok tt ->
  package_run env0 sv_digest sv_print (cf_parse edit) sv_capacity 9 edit ex_world (fst (cf_run edit)) [L "tmp"] (L "cot") (L "/home/a.ova") false (L "/out/b.ovf") cf_package.
Proof.
  intros edit names refs SH CH CP TG RN. constructor.
  - intros x c H; injection H as <-; eexists; split; [vm_compute; reflexivity|]; split; [vm_compute; discriminate|reflexivity].
  - intros a x; split; [discriminate|]; intros c [<-|[]]; vm_compute; tauto.
  - intros c [<-|[<-|[]]]; vm_compute; repeat split; intuition discriminate.
  - intros t r H. assert (X : etag r = envelope_tag V1).
    { unfold cf_parse in H. assert (Y : forall x, Some x = Some r -> r = x) by (intros x Q; now inversion Q). destruct (str_eqb t (L "old")); apply Y in H; rewrite H; [reflexivity|exact TG]. }
    rewrite X. clear. vm_compute. intuition discriminate.
  - apply cf_opened.
  - intros o1 H. split.
    + unfold checked in CH. rewrite H in CH. destruct CH as (F1 & F2 & F3 & F4 & F5). apply (cf_fits o1 names refs); try assumption. destruct (SH o1 H) as (new & m' & -> & S). cbn [package_of_vmd o_hardware].
      rewrite <- cf_version. exact (CommandFileProofs.now_reachable env0 cf_package m' S cf_reads).
    + intros e r l HP. exists (cf_edited edit). split; [reflexivity|]. unfold cf_edited. assert (F : cf_open = Ok cf_package) by (vm_compute; reflexivity). rewrite F. cbn [rbind]. rewrite H. cbn [rbind].
      change (path_of ([L "tmp"] ++ [L "cot"])) with (L "/tmp/cot") in HP. rewrite HP. apply SaveProofs.same_itself.
  - apply CommandHwProps.ok_pair. exact RN.
Qed.

(** Each command changes the package step by step. *)
Lemma file_steps : forall agree E im file_id o o1, add_file_package agree E im file_id o = Ok o1 -> exists new m', o1 = package_of_vmd o new m' /\ CommandFileProofs.shifts (o_version o) (vmd_of o) m'.
Proof.
  intros agree E im file_id o o1 H. unfold add_file_package in H. destruct (add_file_run agree (env_of E o) (vmd_of o) im file_id) as [m'|] eqn:X; [|discriminate H]. cbn [rbind] in H. injection H as <-.
  exists (Some im), m'. split; [reflexivity|]. exact (CommandFileProofs.add_run_shifts agree (env_of E o) _ _ _ _ X).
Qed.
Lemma remove_steps : forall agree E path id o o1, remove_file_package agree E path id o = Ok o1 -> exists new m', o1 = package_of_vmd o new m' /\ CommandFileProofs.shifts (o_version o) (vmd_of o) m'.
Proof.
  intros agree E path id o o1 H. unfold remove_file_package in H. destruct (remove_file_run agree (env_of E o) (vmd_of o) path id) as [m'|] eqn:X; [|discriminate H]. cbn [rbind] in H. injection H as <-.
  exists None, m'. split; [reflexivity|]. exact (CommandFileProofs.remove_run_shifts agree (env_of E o) _ _ _ _ X).
Qed.
Lemma disk_steps : forall agree E fuel guess im dt file_id controller subtype address diskname desc o o1, add_disk_package agree E fuel guess im dt file_id controller subtype address diskname desc o = Ok o1 ->
  exists new m', o1 = package_of_vmd o new m' /\ CommandFileProofs.shifts (o_version o) (vmd_of o) m'.
Proof.
  intros agree E fuel guess im dt file_id controller subtype address diskname desc o o1 H. unfold add_disk_package in H.
  destruct (add_disk_worker agree (env_of E o) fuel (guess (o_platform o)) (vmd_of o) im dt file_id controller subtype address diskname desc) as [[m' k]|] eqn:X; [|discriminate H]. cbn [rbind fst] in H. injection H as <-.
  exists (Some im), m'. split; [reflexivity|]. exact (CommandFileProofs.worker_shifts agree (env_of E o) _ _ _ _ _ _ _ _ _ _ _ _ _ X).
Qed.
Lemma cf_file_runs : package_run env0 sv_digest sv_print (cf_parse cf_file) sv_capacity 9 cf_file ex_world (fst (cf_run cf_file)) [L "tmp"] (L "cot") (L "/home/a.ova") false (L "/out/b.ovf") cf_package.
Proof.
  apply (cf_runs cf_file ex_names ex_refs); [|vm_compute; repeat split|exact cf_names|vm_compute; reflexivity|vm_compute; reflexivity].
  intros o1 H. exact (file_steps _ _ _ _ _ _ H).
Qed.
Lemma cf_remove_runs : package_run env0 sv_digest sv_print (cf_parse cf_remove) sv_capacity 9 cf_remove ex_world (fst (cf_run cf_remove)) [L "tmp"] (L "cot") (L "/home/a.ova") false (L "/out/b.ovf") cf_package.
Proof.
  apply (cf_runs cf_remove [] []); [|vm_compute; repeat split|exact cf_none|vm_compute; reflexivity|vm_compute; reflexivity].
  intros o1 H. exact (remove_steps _ _ _ _ _ _ H).
Qed.
Lemma cf_disk_runs : package_run env0 sv_digest sv_print (cf_parse cf_disk) sv_capacity 9 cf_disk ex_world (fst (cf_run cf_disk)) [L "tmp"] (L "cot") (L "/home/a.ova") false (L "/out/b.ovf") cf_package.
Proof.
  apply (cf_runs cf_disk ex_names ex_refs); [|vm_compute; repeat split|exact cf_names|vm_compute; reflexivity|vm_compute; reflexivity].
  intros o1 H. exact (disk_steps _ _ _ _ _ _ _ _ _ _ _ _ _ _ H).
Qed.
Definition contents (w : world) (o : ovf) : list (str * option str) := map (fun hr => (fst hr, content w (snd hr))) (o_files o).

(** All three runs meet the hypotheses, and the output is as the theorems say. *)
Example C72_example :
  (forall edit, edit = cf_file \/ edit = cf_remove \/ edit = cf_disk ->
    package_run env0 sv_digest sv_print (cf_parse edit) sv_capacity 9 edit ex_world (fst (cf_run edit)) [L "tmp"] (L "cot") (L "/home/a.ova") false (L "/out/b.ovf") cf_package) /\
  orderly (env_of env0 cf_package) (vmd_of cf_package) /\ no_slash cf_image None /\ ids_agree V1 (vmd_of cf_package) cf_image None /\ disk_ids_apart V1 (vmd_of cf_package) cf_image None /\ known_type (L "ide") /\
  summary (vmd_of (cf_again cf_file)) =
    ([(Some (L "sub/d.vmdk"), Some (L "file1")); (Some (L "c.txt"), Some (L "c.txt"))], [(Some (L "vmdisk1"), Some (L "file1"))],
     [row "1" ["3"; ""; ""; ""; ""]; row "2" ["5"; "0"; ""; ""; ""]; row "3" ["17"; ""; "ovf:/disk/vmdisk1"; "2"; "0"]; row "4" ["17"; ""; ""; "2"; "1"]])%string /\
  contents (fst (cf_run cf_file)) (cf_again cf_file) = [(L "sub/d.vmdk", Some (L "disk")); (L "c.txt", Some (L "new"))] /\
  summary (vmd_of (cf_again cf_remove)) = ([], [], [row "1" ["3"; ""; ""; ""; ""]; row "2" ["5"; "0"; ""; ""; ""]; row "4" ["17"; ""; ""; "2"; "1"]])%string /\
  contents (fst (cf_run cf_remove)) (cf_again cf_remove) = [] /\
  summary (vmd_of (cf_again cf_disk)) =
    ([(Some (L "sub/d.vmdk"), Some (L "file1")); (Some (L "c.txt"), Some (L "c.txt"))], [(Some (L "vmdisk1"), Some (L "file1")); (Some (L "c.txt"), Some (L "c.txt"))],
     [row "1" ["3"; ""; ""; ""; ""]; row "2" ["5"; "0"; ""; ""; ""]; row "3" ["17"; ""; "ovf:/disk/vmdisk1"; "2"; "0"]; row "4" ["17"; ""; "ovf:/disk/c.txt"; "2"; "1"]])%string /\
  contents (fst (cf_run cf_disk)) (cf_again cf_disk) = [(L "sub/d.vmdk", Some (L "disk")); (L "c.txt", Some (L "new"))].
Proof.
  split; [intros edit [-> | [-> | ->]]; [exact cf_file_runs|exact cf_remove_runs|exact cf_disk_runs]|]. split; [exact cf_orderly|]. split; [apply no_slash_ok; vm_compute; reflexivity|].
  split; [apply (agree_ok (vmd_of cf_package) cf_image); vm_compute; reflexivity|]. split; [|split; [exact known_ide|repeat (split; [vm_compute; reflexivity|]); vm_compute; reflexivity]].
  intros x Hx dk Hd Hi. exfalso. assert (D : disks V1 (vmd_of cf_package) = echildren sv_disks) by (vm_compute; reflexivity). rewrite D in Hd. destruct Hd as [<-|[]].
  change (Some (L "vmdisk1") = Some x) in Hi. injection Hi as <-. destruct Hx as [Hx|[Hx|(f & Hf & Hx)]]; [discriminate Hx|discriminate Hx|].
  assert (F : files V1 (vmd_of cf_package) = echildren cm_refs) by (vm_compute; reflexivity). rewrite F in Hf. destruct Hf as [<-|[]]. vm_compute in Hx. discriminate Hx.
Qed.
Print Assumptions C72_example.
