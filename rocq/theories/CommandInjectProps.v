(** A whole run of inject-config (C73): the package is read, a disk with the configuration is made
    and put into it, and it is written; whoever opens the output finds that disk in the drive where
    it was to be put, and all else as it was. *)
From Coq Require Import List Ascii Bool ZArith String.
Import ListNotations.
From Verif Require Import PyBase PyBaseProofs PyDict ValidationModel XmlModel XmlSpec XmlProps NamesModel ItemModel ItemSpec ItemProps GenerateSpec HardwareModel HardwareSpec HardwareProps EnvPropModel EditPropModel HardwareIdProofs CountSpec FindSpec RereadSpec
  ProfileModel ProfileSpec ProfileProps NetworkModel NetworkSpec DriveModel DriveSpec DriveProps InfoModel PlatformModel RefreshModel RefreshSpec ManifestSpec RawModel PathModel PathSpec TarModel TarSpec TarProps
  OvfWriteModel OvfWriteSpec OvfWriteProps OpenModel OpenSpec OpenProps SaveModel SaveSpec SaveProps CommandModel CommandSpec CommandProps CommandFileModel CommandFileSpec CommandFileProps CommandInjectModel CommandInjectSpec.
From Verif Require Import CountProps.
From Verif Require PyDictProofs RereadProps SaveProofs CommandFileProofs CommandFileProofs2 CommandInjectProofs CommandHwProps CommandProofs2 InjectModel InjectSpec InjectProps.
Local Open Scope nat_scope.

Section Runs.
Variables (E : env) (digest : str -> str -> str) (print : elem -> str) (parse : str -> option elem) (capacity : str -> result str) (fuel : nat).
Variables (w w' : world) (d : list str) (u input : str) (same : bool) (output : str) (o : ovf).
Variables (d2 : list str) (u2 : str).
(** The output can be opened, in another working directory, and is in order. *)
Let opens (o2 : ovf) : Prop := factory E digest parse w' (path_of (d2 ++ [u2])) (destination input output) [] = Ok o2 /\ orderly (env_of E o2) (vmd_of o2).
Let v := o_version o.
Let EO := env_of E o.
Let m := vmd_of o.
Let p := o_platform o.
Let wd := path_of (d ++ [u]).
(** The files once the input is open (only the working directory differs, C67) *)
Let w1 := after_opening w wd input.

(** The output has a File with the name of the platform's configuration disk, and its content is the
    image with exactly the user's files on it, the configurations under the names of the platform.
    It is in a drive of the right kind: the one that held the configuration disk that was there,
    which the user agreed to overwrite, or else the first empty one.  The drive has its other
    values (controller, address), and all other devices and files are the same; there are no more
    devices and no fewer. *)
Theorem C73_inject : forall agree overwrite make image_of fuel2 s,
  changing_run E digest print parse capacity fuel (inject_package agree overwrite make image_of E fuel2 wd s) w w' d u input same output o ->
  (forall c, In c (d2 ++ [u2]) -> proper c) -> orderly EO m ->
  InjectSpec.plain_places (o_hardware o) -> InjectSpec.drives_everywhere EO (o_hardware o) ->
  (InjectSpec.config_drive p = L "harddisk" -> disk_ids_apart v m (mkImage wd (InjectSpec.config_disk p) 0 0) None) ->
  user_files_apart p wd s -> package_files_apart wd o ->
  exists o2 hw' lf f ld k i j r l, opens o2 /\ written_hardware E o o2 hw' /\
    replaced (files v m) lf f /\ same_files v lf (files v (vmd_of o2)) /\ get_attr f (FILE_HREF v) = Some (InjectSpec.config_disk p) /\
    same_disks v ld (disks v (vmd_of o2)) /\
    on_the_disk w1 p s l /\
    In (k, i) (o_hardware o) /\ In (k, j) (o_hardware o2) /\ present EO j None /\ is_a (InjectSpec.config_drive p) j /\
    only_value (i_props j) HOST_RESOURCE (VStr r) /\ (exists f2, file_of v (vmd_of o2) r f2 /\ alike_but [FILE_SIZE v] f f2) /\
    (forall n q x, n <> RESOURCE_TYPE -> n <> HOST_RESOURCE -> n <> ITEM_DESCRIPTION -> ~ text_property v n -> (holds (i_props j) n q x <-> holds (i_props i) n q x)) /\
    ((InjectSpec.config_drive p = L "harddisk" /\ exists dk, replaced (disks v m) ld dk /\ exists dk2, disk_of v (vmd_of o2) r dk2 /\ alike_but [DISK_CAPACITY v; DISK_CAP_UNITS v] dk dk2) \/
     (InjectSpec.config_drive p = L "cdrom" /\ removed (disks v m) ld)) /\
    (((forall g, In g (files v m) -> get_attr g (FILE_HREF v) <> Some (InjectSpec.config_disk p)) /\ InjectSpec.first_empty EO p m k i) \/
     (exists g, In g (files v m) /\ get_attr g (FILE_HREF v) = Some (InjectSpec.config_disk p) /\ InjectSpec.holds v m i g /\ overwrite (get_attr g (FILE_ID v)) = true)) /\
    (forall k', taken (o_hardware o2) k' <-> taken (o_hardware o) k') /\
    (forall k' i', k' <> k -> In (k', i') (o_hardware o) -> kept_in EO (o_hardware o2) k' i') /\
    (forall h data, stored w' o2 h data <->
      (h = InjectSpec.config_disk p /\ data = image_of (disk_format p) l) \/
      (h <> InjectSpec.config_disk p /\ stored w1 o h data /\ exists x, In x lf /\ get_attr x (FILE_HREF v) = Some h)).
Proof.
  intros agree overwrite make image_of fuel2 s RUN PD O PP DE DA UA PA.
  exact (CommandInjectProofs.inject_out E digest print parse capacity fuel w w' d u input same output o d2 u2 PD O agree overwrite make image_of fuel2 s RUN PP DE DA UA PA).
Qed.
End Runs.
Print Assumptions C73_inject.

(** The user's files are found, wherever they are: if each can be read and the platform takes the
    configurations that are given, the image is made with all of them, and none is missing. *)
Theorem C73_found : forall w p wd s, user_files_apart p wd s ->
  (forall x, InjectModel.given (InjectModel.s_config s) = Some x -> (exists c, read w x = Some c) /\ config_text_file p <> None) ->
  (forall x, InjectModel.given (InjectModel.s_secondary s) = Some x -> (exists c, read w x = Some c) /\ secondary_config_text_file p <> None) ->
  (forall x, In x (InjectModel.s_extra s) -> exists c, read w x = Some c) ->
  exists l, for_image p wd (host_of w (looked_at p wd s)) s = Ok l /\ on_the_disk w p s l.
Proof. exact CommandInjectProofs.image_files. Qed.
Print Assumptions C73_found.
(** two files, one in another directory *)
Definition found_world : world := put (put ex_world (L "/home/x.cfg") (L "one")) (L "/etc/y.txt") (L "two").
Definition found_settings : InjectModel.settings := InjectModel.mkSettings (Some (L "/home/x.cfg")) None [L "/etc/y.txt"].
Example C73_found_example : user_files_apart CSR1000V (L "/tmp/cot") found_settings /\
  read found_world (L "/home/x.cfg") = Some (L "one") /\ read found_world (L "/etc/y.txt") = Some (L "two") /\ config_text_file CSR1000V <> None /\
  for_image CSR1000V (L "/tmp/cot") (host_of found_world (looked_at CSR1000V (L "/tmp/cot") found_settings)) found_settings =
    Ok [(L "iosxe_config.txt", L "one"); (L "y.txt", L "two")].
Proof.
  split; [|split; [reflexivity|split; [reflexivity|split; [discriminate|vm_compute; reflexivity]]]].
  intros x n Hx Hn. assert (H : x = L "/home/x.cfg" \/ x = L "/etc/y.txt") by (destruct Hx as [Hx|[Hx|[Hx|[]]]]; [injection Hx as <-; now left|discriminate Hx|now right]).
  destruct Hn as [Hn|[Hn|[Hn|[Hn|Hn]]]]; [injection Hn as <-|discriminate Hn|subst n|subst n|subst n]; destruct H as [-> | ->]; vm_compute; discriminate.
Qed.

(** A run that could not put the disk into the package writes nothing: the files are what they were
    when the package was open. *)
Theorem C73_refused : forall E digest print parse capacity fuel edit w d u input same output o e,
  factory E digest parse w (path_of (d ++ [u])) input output = Ok o -> edit (after_opening w (path_of (d ++ [u])) input) o = Err e ->
  command_in E digest print parse capacity fuel edit w (path_of (d ++ [u])) input same output = (after_opening w (path_of (d ++ [u])) input, Err e).
Proof. intros E digest print parse capacity fuel edit w d u input same output o e H1 H2. unfold command_in. rewrite H1. cbv zeta. now rewrite H2. Qed.
Print Assumptions C73_refused.

(** ** A package with an empty CD-ROM drive *)
Definition ci_product : elem := Elem (PRODUCT_SECTION V1) [(ProductModel.PRODUCT_CLASS V1, L "com.cisco.csr1000v")] None None [Elem (INFO V1) [] (Some (L "about")) None []].
Definition ci_section : elem := Elem (VIRTUAL_HW_SECTION V1) [] None None
  [Elem (INFO V1) [] (Some (L "hardware")) None [];
   an_item [] [rasd "InstanceID" "1"; rasd "ResourceType" "3"; rasd "VirtualQuantity" "4"];
   an_item [] [rasd "Address" "0"; rasd "InstanceID" "2"; rasd "ResourceType" "5"];
   an_item [] [rasd "AddressOnParent" "0"; rasd "HostResource" "ovf:/disk/vmdisk1"; rasd "InstanceID" "3"; rasd "Parent" "2"; rasd "ResourceType" "17"];
   an_item [] [rasd "AddressOnParent" "1"; rasd "InstanceID" "4"; rasd "Parent" "2"; rasd "ResourceType" "15"]].
Definition ci_root : elem := Elem (envelope_tag V1) [] None None [cm_refs; sv_disks; sv_deploy; Elem (VIRTUAL_SYSTEM V1) [] None None [ci_product; ci_section]].
Definition ci_make (fmt : str) (l : list (str * str)) : result (Z * Z) := Ok (9%Z, 1073741824%Z).
Definition ci_image (fmt : str) (l : list (str * str)) : str := fmt ++ L ":" ++ flat_map (fun nc => fst nc ++ L "=" ++ snd nc) l.
Definition ci_settings : InjectModel.settings := InjectModel.mkSettings (Some (L "/home/c.txt")) None [].
Definition ci_open : result ovf := factory env0 sv_digest (fun _ => Some ci_root) ex_world (L "/tmp/cot") (L "/home/a.ova") [].
Definition ci_package : ovf := some_package ci_open.
Local Notation ci_wd := (path_of ([L "tmp"] ++ [L "cot"])).
Local Notation ci_edit := (inject_package yes (fun _ => true) ci_make ci_image env0 100 ci_wd ci_settings).
Definition ci_w1 : world := after_opening ex_world ci_wd (L "/home/a.ova").
Definition ci_written : elem :=
  match (do o <- ci_open; do wo <- ci_edit ci_w1 o; prepare env0 sv_capacity 9 (fst wo) (snd wo)) with
  | Ok (e, _, _) => xml_reindent e 0
  | Err _ => ci_root
  end.
Definition ci_parse (t : str) : option elem := if str_eqb t (L "old") then Some ci_root else Some ci_written.
Local Notation ci_run := (command_in env0 sv_digest sv_print ci_parse sv_capacity 9 ci_edit ex_world ci_wd (L "/home/a.ova") false (L "/out/b.ovf")).
Local Notation ci_again := (some_package (factory env0 sv_digest ci_parse (fst ci_run) (L "/tmp/new") (L "/out/b.ovf") [])).
Definition ci_result : world * ovf := match ci_edit ci_w1 ci_package with Ok x => x | Err _ => (ex_world, ci_package) end.

Lemma ci_opened : factory env0 sv_digest ci_parse ex_world ci_wd (L "/home/a.ova") (L "/out/b.ovf") = Ok ci_package.
Proof. vm_compute. reflexivity. Qed.
Lemma ci_version : o_version ci_package = V1. Proof. vm_compute. reflexivity. Qed.
Lemma ci_platform : o_platform ci_package = CSR1000V. Proof. vm_compute. reflexivity. Qed.
Lemma ci_reads : read_hardware (env_of env0 ci_package) (o_hardware_section ci_package) = Ok (o_hardware ci_package).
Proof. exact (CommandProofs2.factory_reads _ _ _ _ _ _ _ _ ci_opened). Qed.
Lemma ci_reachable : hw_reachable V1 (o_hardware ci_package).
Proof. rewrite <- ci_version. exact (HardwareSpec.H_read _ (env_of env0 ci_package) _ _ eq_refl ci_reads). Qed.
Lemma ci_orderly : orderly (env_of env0 ci_package) (vmd_of ci_package).
Proof.
  apply (one_orderly _ _ (hd_elem (echildren cm_refs)) (hd_elem (echildren sv_disks)) (L "3")); [exact ci_version|exact ci_reachable|..]; vm_compute; reflexivity.
Qed.
Lemma ci_everywhere : InjectSpec.drives_everywhere (env_of env0 ci_package) (o_hardware ci_package).
Proof.
  intros k i Hi _. assert (H : forallb (fun ki => existsb (fun p => match p with None => true | Some _ => false end) (recs (snd ki) (INSTANCE_ID V1))) (o_hardware ci_package) = true) by (vm_compute; reflexivity).
  rewrite forallb_forall in H. specialize (H _ Hi). cbn [snd] in H. apply existsb_exists in H as (q & Hq & Eq). destruct q; [discriminate|]. apply recs_In in Hq as [x Hx]. left. exists x. exact Hx.
Qed.
Lemma ci_places : InjectSpec.plain_places (o_hardware ci_package).
Proof. apply InjectProps.plain_places_ok; vm_compute; reflexivity. Qed.
Lemma ci_user : user_files_apart (o_platform ci_package) ci_wd ci_settings.
Proof.
  rewrite ci_platform. intros x n Hx Hn. assert (x = L "/home/c.txt") as -> by (destruct Hx as [Hx|[Hx|[]]]; [injection Hx as <-; reflexivity|discriminate Hx]).
  destruct Hn as [Hn|[Hn|[Hn|[Hn|Hn]]]]; [injection Hn as <-|discriminate Hn|subst n|subst n|subst n]; vm_compute; discriminate.
Qed.
Lemma ci_files_apart : package_files_apart ci_wd ci_package.
Proof.
  intros h dd x n Hi _. exfalso. assert (F : o_files ci_package = [(L "sub/d.vmdk", InTar (L "/home/a.ova") (L "./sub/d.vmdk"))]) by (vm_compute; reflexivity).
  rewrite F in Hi. destruct Hi as [Hi|[]]. discriminate Hi.
Qed.
Definition ci_refs : list (str * ref) := [(L "sub/d.vmdk", InTar (L "/home/a.ova") (L "./sub/d.vmdk")); (L "config.iso", OnDisk (L "/tmp/cot") (L "config.iso"))].
Definition ci_data (h : str) : str := if str_eqb h (L "config.iso") then L "iso:iosxe_config.txt=new" else L "disk".
Lemma ci_names : copyable (fst ci_result) [L "out"] (L "b.ovf") (L "b.mf") [L "sub/d.vmdk"; L "config.iso"] ci_refs ci_data.
Proof.
  assert (P1 : plain_name (L "sub/d.vmdk") [L "sub"; L "d.vmdk"]) by (split; [discriminate|]; split; [intros c [<-|[<-|[]]]; repeat split; vm_compute; intuition discriminate|reflexivity]).
  assert (P2 : plain_name (L "config.iso") [L "config.iso"]) by (split; [discriminate|]; split; [intros c [<-|[]]; repeat split; vm_compute; intuition discriminate|reflexivity]).
  constructor.
  + repeat constructor; vm_compute; intuition discriminate.
  + repeat constructor; vm_compute; intuition discriminate.
  + intros h. reflexivity.
  + intros h [<-|[<-|[]]].
    * split; [now exists [L "sub"; L "d.vmdk"]|]. repeat split; vm_compute; intuition discriminate.
    * split; [now exists [L "config.iso"]|]. repeat split; vm_compute; intuition discriminate.
  + intros h r [X|[X|[]]]; injection X as <- <-; vm_compute; reflexivity.
  + intros h d n [X|[X|[]]]; [discriminate X|]. injection X as <- <- <-. vm_compute. intuition discriminate.
  + intros h t n [X|[X|[]]]; [|discriminate X]. injection X as <- <- <-. reflexivity.
Qed.
Lemma ci_fits : forall o1 w2 names refs data, o_version o1 = V1 -> names_in V1 (o_references o1) = names -> o_files o1 = refs ->
  (forall k i, In (k, i) (o_hardware o1) -> writable (env_of env0 o1) i /\ numbered (env_of env0 o1) k i /\ known_profiles (env_of env0 o1) i) -> CommandHwProps.plain_b o1 = true ->
  copyable w2 [L "out"] (L "b.ovf") (L "b.mf") names refs data -> can_be_written env0 w2 ci_wd (L "/out/b.ovf") o1.
Proof.
  intros o1 w2 names refs data F1 F2 F3 F4 F6 F7. constructor.
  - exact F4.
  - rewrite F1. intros x c Hx Ix Hc. unfold CommandHwProps.plain_b in F6. rewrite forallb_forall in F6. specialize (F6 x Hx). apply orb_prop in F6 as [F6|F6].
    + apply negb_true_iff in F6. unfold is_item_elem in F6. destruct Ix as [Ix|[Ix|Ix]]; rewrite Ix in F6; discriminate F6.
    + rewrite forallb_forall in F6. specialize (F6 c Hc). apply andb_prop in F6 as [A B]. split; [now destruct (echildren c)|now apply mem_str_In].
  - rewrite F1. intros F. discriminate F.
  - apply (fits_descriptor _ _ _ _ [L "out"] (L "b") data); [reflexivity|discriminate| | | |].
    + intros c [<-|[]]. repeat split; vm_compute; intuition discriminate.
    + split; [vm_compute; intuition discriminate|]. exists "b"%char. split; [now left|discriminate].
    + vm_compute. intuition discriminate.
    + rewrite F1, F2, F3. exact F7.
Qed.
Lemma inject_steps : forall agree overwrite make image_of E fuel wd s w o wo, inject_package agree overwrite make image_of E fuel wd s w o = Ok wo ->
  exists new m', snd wo = package_of_vmd o new m' /\ CommandFileProofs.shifts (o_version o) (vmd_of o) m'.
Proof.
  intros agree overwrite make image_of E fuel wd s w o wo H. unfold inject_package in H. cbv zeta in H.
  destruct (InjectModel.inject_run agree overwrite make (env_of E o) fuel (o_platform o) wd (host_of w (looked_at (o_platform o) wd s)) s (vmd_of o)) as [[m' k]|] eqn:X; [|discriminate H].
  cbn [rbind fst] in H. destruct (for_image (o_platform o) wd (host_of w (looked_at (o_platform o) wd s)) s) as [l|]; [|discriminate H]. cbn [rbind] in H. injection H as <-.
  eexists. exists m'. split; [reflexivity|]. exact (CommandInjectProofs.inject_worker _ _ _ _ _ _ _ _ _ _ _ _ X).
Qed.
Lemma ci_done : ci_edit ci_w1 ci_package = Ok ci_result. Proof. vm_compute. reflexivity. Qed.
(** The drive has the description of a configuration disk. *)
Definition ci_drive : item := match dget str_eqb (L "4") (o_hardware (snd ci_result)) with Some i => i | None => mkItem [] [] false None end.
Lemma ci_result_reachable : hw_reachable V1 (o_hardware (snd ci_result)).
Proof.
  destruct (inject_steps _ _ _ _ _ _ _ _ _ _ _ ci_done) as (new & m' & -> & S). cbn [package_of_vmd o_hardware]. rewrite <- ci_version. exact (CommandFileProofs.now_reachable env0 ci_package m' S ci_reads).
Qed.
Lemma ci_env : env_of env0 (snd ci_result) = env_of env0 ci_package. Proof. vm_compute. reflexivity. Qed.
Definition CI_DRIVE : props :=
  [(L "AddressOnParent", [(VStr (L "1"), [None])]); (L "InstanceID", [(VStr (L "4"), [None])]); (L "Parent", [(VStr (L "2"), [None])]);
   (L "ResourceType", [(VStr (L "15"), [None])]); (L "HostResource", [(VStr (L "ovf:/file/config.iso"), [None])]); (L "Description", [(VStr (L "Configuration disk"), [None])])].
Lemma ci_drive_props : i_props ci_drive = CI_DRIVE. Proof. vm_compute. reflexivity. Qed.
Lemma ci_own : forall n p x, own CI_DRIVE n p x -> p = None /\ (In n (map L ["AddressOnParent"; "InstanceID"; "Parent"; "ResourceType"; "HostResource"; "Description"]%string)) /\ exists t, x = VStr t.
Proof.
  intros n p x (dd & s & Hd & Hs & Hp). repeat (destruct Hd as [Hd|Hd]); try contradiction; injection Hd as <- <-; (destruct Hs as [Hs|[]]; injection Hs as <- <-; destruct Hp as [<-|[]]); (split; [reflexivity|]); (split; [cbn; tauto|eexists; reflexivity]).
Qed.
Lemma ci_embeds : forall E Q n a x, e_ver E = V1 -> ~ embeds E CI_DRIVE Q n a x.
Proof. intros [v P N U] Q n a x V H. cbn [e_ver] in V. subst v. inversion H as [n0 y G|n0 y G|n0 y G|y G]; vm_compute in G; discriminate G. Qed.
Lemma ci_description : forall E q, e_ver E = V1 -> get_value E CI_DRIVE (L "Description") (Some [q]) = Ok (Some (VStr (L "Configuration disk"))).
Proof. intros [v P N U] [x|] V; cbn [e_ver] in V; subst v; vm_compute; reflexivity. Qed.
Lemma ci_drive_writable : forall E, e_ver E = V1 -> writable E (mkItem CI_DRIVE [] false None).
Proof.
  intros E V. constructor; cbn [i_props].
  - intros n p x H. left. rewrite V. apply ci_own in H as (_ & H & _). repeat (destruct H as [<-|H]; [vm_compute; tauto|]). destruct H.
  - intros n x y H. apply ci_own in H as (H & _). discriminate H.
  - intros p l t H. apply ci_own in H as (_ & _ & z & H). discriminate H.
  - intros n q t [-> | ->] HR; rewrite ?V in *.
    + exfalso. revert HR. destruct E as [v P N U]. cbn [e_ver] in V. subst v. destruct q; vm_compute; discriminate.
    + change ITEM_DESCRIPTION with (L "Description") in HR. unfold reports in HR. cbn [i_props] in HR. rewrite (ci_description E q V) in HR. injection HR as <-. split; [discriminate|]. split.
      * intros Q a x _ _ H. exfalso. exact (ci_embeds E Q _ a x V H).
      * split; [vm_compute; intuition discriminate|]. intros Q a w1 x y w2 z b _ _ H. exfalso. exact (ci_embeds E Q _ w1 x V H).
Qed.
Lemma ci_devices : forall k i, In (k, i) (o_hardware (snd ci_result)) ->
  writable (env_of env0 (snd ci_result)) i /\ numbered (env_of env0 (snd ci_result)) k i /\ known_profiles (env_of env0 (snd ci_result)) i.
Proof.
  intros k i Hi. assert (V : o_version (snd ci_result) = V1) by (vm_compute; reflexivity).
  assert (H : forallb (fun ki => str_eqb (fst ki) (L "4") || CommandHwProps.simple_b (env_of env0 (snd ci_result)) ki) (o_hardware (snd ci_result)) = true) by (vm_compute; reflexivity).
  rewrite forallb_forall in H. specialize (H (k, i) Hi). cbn [fst] in H. apply orb_prop in H as [H|H].
  - apply str_eqb_eq in H. subst k.
    assert (I : i = ci_drive).
    { pose proof (proj1 (reachable_ids _ _ ci_result_reachable)) as ND. apply (PyDictProofs.dget_Some_In str_eqb str_eqb_eq _ _ _ ND) in Hi. unfold ci_drive. now rewrite Hi. }
    subst i. clear Hi. split; [apply (RereadProps.writable_props _ (mkItem CI_DRIVE [] false None)); [symmetry; exact ci_drive_props|apply ci_drive_writable; exact V]|]. split.
    + split; [discriminate|]. intros n q x Ho. rewrite ci_drive_props in Ho. apply ci_own in Ho as (-> & _). vm_compute. reflexivity.
    + intros n x y Ho. rewrite ci_drive_props in Ho. apply ci_own in Ho as (Ho & _). discriminate Ho.
  - apply (CommandHwProps.simple_one _ (o_hardware (snd ci_result))); [|exact Hi|exact H]. change (hw_reachable (o_version (snd ci_result)) (o_hardware (snd ci_result))). rewrite V. exact ci_result_reachable.
Qed.
Lemma ci_can : can_be_written env0 (fst ci_result) ci_wd (L "/out/b.ovf") (snd ci_result).
Proof.
  apply (ci_fits (snd ci_result) (fst ci_result) [L "sub/d.vmdk"; L "config.iso"] ci_refs ci_data); [vm_compute; reflexivity|vm_compute; reflexivity|vm_compute; reflexivity|exact ci_devices|vm_compute; reflexivity|exact ci_names].
Qed.
Lemma ci_tag : etag ci_written = envelope_tag V1. Proof. vm_compute. reflexivity. Qed.
Lemma ci_ok : snd ci_run = Ok tt. Proof. vm_compute. reflexivity. Qed.
Lemma ci_openf : ci_open = Ok ci_package. Proof. vm_compute. reflexivity. Qed.
Lemma ci_runs : changing_run env0 sv_digest sv_print ci_parse sv_capacity 9 ci_edit ex_world (fst ci_run) [L "tmp"] (L "cot") (L "/home/a.ova") false (L "/out/b.ovf") ci_package.
Proof.
  constructor.
  - intros x c H; injection H as <-; eexists; split; [vm_compute; reflexivity|]; split; [vm_compute; discriminate|reflexivity].
  - intros a x; split; [discriminate|]; intros c [<-|[]]; vm_compute; tauto.
  - intros c [<-|[<-|[]]]; vm_compute; repeat split; intuition discriminate.
  - intros t r H. assert (X : etag r = envelope_tag V1).
    { unfold ci_parse in H. assert (Y : forall x, Some x = Some r -> r = x) by (intros x Q; now inversion Q). destruct (str_eqb t (L "old")); apply Y in H; rewrite H; [reflexivity|exact ci_tag]. }
    rewrite X. clear. vm_compute. intuition discriminate.
  - exact ci_opened.
  - intros w2 o1 H. change (after_opening ex_world ci_wd (L "/home/a.ova")) with ci_w1 in H. rewrite ci_done in H.
    assert (Y : forall a b : world * ovf, Ok a = Ok b -> a = b) by (intros a b Q; now inversion Q). apply Y in H.
    assert (W : w2 = fst ci_result /\ o1 = snd ci_result) by (rewrite H; now split). destruct W as [-> ->]. split; [exact ci_can|].
    intros e r l HP. exists ci_written. split; [reflexivity|]. unfold ci_written. rewrite ci_openf. cbn [rbind]. rewrite ci_done. cbn [rbind]. rewrite HP. apply SaveProofs.same_itself.
  - apply CommandHwProps.ok_pair. exact ci_ok.
Qed.

(** The run meets the hypotheses, and the output is as the theorem says. *)
Example C73_example :
  changing_run env0 sv_digest sv_print ci_parse sv_capacity 9 ci_edit ex_world (fst ci_run) [L "tmp"] (L "cot") (L "/home/a.ova") false (L "/out/b.ovf") ci_package /\
  orderly (env_of env0 ci_package) (vmd_of ci_package) /\ InjectSpec.plain_places (o_hardware ci_package) /\ InjectSpec.drives_everywhere (env_of env0 ci_package) (o_hardware ci_package) /\
  InjectSpec.config_drive (o_platform ci_package) <> L "harddisk" /\ user_files_apart (o_platform ci_package) ci_wd ci_settings /\ package_files_apart ci_wd ci_package /\
  summary (vmd_of ci_again) =
    ([(Some (L "sub/d.vmdk"), Some (L "file1")); (Some (L "config.iso"), Some (L "config.iso"))], [(Some (L "vmdisk1"), Some (L "file1"))],
     [row "1" ["3"; ""; ""; ""; ""]; row "2" ["5"; "0"; ""; ""; ""]; row "3" ["17"; ""; "ovf:/disk/vmdisk1"; "2"; "0"]; row "4" ["15"; ""; "ovf:/file/config.iso"; "2"; "1"]])%string /\
  contents (fst ci_run) ci_again = [(L "sub/d.vmdk", Some (L "disk")); (L "config.iso", Some (L "iso:iosxe_config.txt=new"))] /\
  on_the_disk ci_w1 CSR1000V ci_settings [(L "iosxe_config.txt", L "new")].
Proof.
  split; [exact ci_runs|]. split; [exact ci_orderly|]. split; [exact ci_places|]. split; [exact ci_everywhere|]. split; [rewrite ci_platform; vm_compute; discriminate|]. split; [exact ci_user|]. split; [exact ci_files_apart|].
  split; [vm_compute; reflexivity|]. split; [vm_compute; reflexivity|].
  exists [(L "iosxe_config.txt", L "new")], [], []. split; [reflexivity|]. split; [exists (L "iosxe_config.txt"), (L "new"); split; [reflexivity|]; split; [vm_compute; reflexivity|reflexivity]|]. split; [reflexivity|constructor].
Qed.
Print Assumptions C73_example.
