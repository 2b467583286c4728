(** A package that is written and opened again is the same package, without complaints (C68). *)
From Coq Require Import List Ascii Bool ZArith String.
Import ListNotations.
From Verif Require Import PyBase PyBaseProofs PyDict XmlModel XmlSpec XmlProps NamesModel ItemModel ItemProps GenerateSpec HardwareModel HardwareSpec HardwareProps RereadSpec RereadProps
  ProfileModel NetworkModel NetworkSpec DriveModel EnvPropModel EditPropModel ProductModel InfoModel PlatformModel RefreshModel RefreshSpec ManifestSpec RawModel PathModel PathSpec TarModel TarSpec TarProps ArchiveProofs
  OvfWriteModel OvfWriteSpec OvfWriteProps OpenModel OpenSpec OpenProps SaveModel SaveSpec SaveProofs.
Local Open Scope nat_scope.

(** An open package, whatever was done to its hardware and in its sections meanwhile, is written
    as descriptor with files and can then be opened, anywhere: all is as it was before, with the contents of the
    files, and nothing is reported. *)
Theorem C68_ovf : forall E digest print parse capacity fuel w w' wd input same W B o data d u,
  consistent o -> hardware_ready (env_of E o) (o_hardware o) (o_hardware_section o) ->
  images_measured capacity -> plain_units (o_version o) (vmd_of o) -> read_as_printed E print parse capacity fuel w o ->
  (forall a x, hex_digest (digest a x)) ->
  W <> [] -> (forall c, In c W -> proper c) -> stem B -> ~ In NL B ->
  copyable w W (B ++ L ".ovf") (B ++ L ".mf") (names_in (o_version o) (o_references o)) (o_files o) data ->
  write E digest print capacity fuel w wd input same (path_of (W ++ [B ++ L ".ovf"])) o = (w', Ok tt) ->
  exists o2, factory E digest parse w' (path_of (d ++ [u])) (path_of (W ++ [B ++ L ".ovf"])) [] = Ok o2 /\ same_package E w w' o o2.
Proof.
  intros E digest print parse capacity fuel w w' wd input same W B o data d u K HR CAP UN XML HEX WN WP SB NB CP WR.
  exact (saved_ovf E digest print parse capacity fuel w w' wd input same _ o data d u K HR CAP UN XML HEX WR W B eq_refl WN WP SB NB CP).
Qed.
Print Assumptions C68_ovf.

(** The same for one archive. *)
Theorem C68_ova : forall E digest print parse capacity fuel w w' input same output W B o data d u,
  consistent o -> hardware_ready (env_of E o) (o_hardware o) (o_hardware_section o) ->
  images_measured capacity -> plain_units (o_version o) (vmd_of o) -> read_as_printed E print parse capacity fuel w o ->
  (forall a x, hex_digest (digest a x)) -> (forall c, In c (d ++ [u]) -> proper c) ->
  kind_of output (L ".ova") -> stem_of output B -> W <> [] -> (forall c, In c W -> proper c) -> ~ In NL B ->
  packable w W (B ++ L ".ovf") (B ++ L ".mf") (names_in (o_version o) (o_references o)) (o_files o) data ->
  write E digest print capacity fuel w (path_of W) input same output o = (w', Ok tt) ->
  exists o2, factory E digest parse w' (path_of (d ++ [u])) output [] = Ok o2 /\ same_package E w w' o o2.
Proof.
  intros E digest print parse capacity fuel w w' input same output W B o data d u K HR CAP UN XML HEX PR KO SO WN WP NB PK WR.
  exact (saved_ova E digest print parse capacity fuel w w' _ input same output o data d u K HR CAP UN XML HEX PR WR W B KO eq_refl SO WN WP NB PK).
Qed.
Print Assumptions C68_ova.

(** Every package that was opened is such a package, and still is with other hardware. *)
Theorem C68_opened : forall E digest parse w d u input output o,
  (forall c, In c (d ++ [u]) -> proper c) -> (forall t r, parse t = Some r -> ~ In NL (etag r)) ->
  factory E digest parse w (path_of (d ++ [u])) input output = Ok o -> consistent o /\ forall h, consistent (with_hardware h o).
Proof.
  intros E digest parse w d u input output o PD PP F. pose proof (opened_consistent E digest parse w d u input output o PD PP F) as C.
  split; [exact C|]. intros h. destruct C. constructor; assumption.
Qed.
Print Assumptions C68_opened.

(** The names of outputs that are accepted when a package is opened include "x.box" (C67), but no
    package can be written to it: NotImplementedError is all there is in the end. *)
Theorem C68_box_refuted : forall E digest print capacity fuel w wd input same output o, kind_of output (L ".box") ->
  exists e, write E digest print capacity fuel w wd input same output o = (w, Err e) /\ (forall x, prepare E capacity fuel w o = Ok x -> e = ENotImplemented).
Proof. exact box_not_written. Qed.
Print Assumptions C68_box_refuted.

(** ** A package with two files, a disk, two profiles, and a network that no card uses *)
Definition sv_file (h id : string) : elem := Elem (FILE V1) [(FILE_HREF V1, L h); (FILE_ID V1, L id)] None None [].
Definition sv_refs : elem := Elem (REFERENCES V1) [] None None [sv_file "sub/d.vmdk" "file1"; sv_file "c.txt" "file2"].
Definition sv_disks : elem := Elem (DISK_SECTION V1) [] None None
  [Elem (DISK V1) [(DISK_ID V1, L "vmdisk1"); (DISK_FILE_REF V1, L "file1"); (DISK_CAPACITY V1, L "1")] None None []].
Definition sv_nets : elem := Elem (NETWORK_SECTION V1) [] None None [Elem (NETWORK V1) [(NETWORK_NAME V1, L "unused")] None None []].
Definition sv_deploy : elem := Elem (DEPLOY_OPT_SECTION V1) [] None None
  [Elem (CONFIG V1) [(CONFIG_ID V1, L "small")] None None []; Elem (CONFIG V1) [(CONFIG_ID V1, L "big")] None None []].
Definition sv_product : elem := Elem (PRODUCT_SECTION V1) [] None None [].
Definition sv_system : elem := Elem (VIRTUAL_SYSTEM V1) [] None None [sv_product; cpus_and_memory].
Definition sv_root : elem := Elem (envelope_tag V1) [] None None [sv_refs; sv_disks; sv_nets; sv_deploy; sv_system].
(** The version was set after the package was opened. *)
Definition sv_product' : elem := Elem (PRODUCT_SECTION V1) [] None None [Elem (OVF_NS V1 ++ L "Version") [] (Some (L "2.0")) None []].
Definition sv_package : ovf := mkOvf V1 sv_root sv_refs (Some sv_disks) (Some sv_nets) (Some sv_deploy) sv_system (Some sv_product') None cpus_and_memory
  [L "small"; L "big"] two_devices (for_product_string None) ex_refs [].
Definition sv_digest (a x : str) : str := L "0".
Definition sv_print (e : elem) : str := L "xml".
Definition sv_capacity (x : str) : result str := Ok (L "1073741824").
Definition sv_written : elem := match prepare env0 sv_capacity 9 ex_world sv_package with Ok (e, _, _) => xml_reindent e 0 | Err _ => sv_root end.
Definition sv_parse (t : str) : option elem := Some sv_written.
Definition sv_write (output : string) : world * result unit := write env0 sv_digest sv_print sv_capacity 9 ex_world (L "/tmp/cot") (L "/home/a.ova") false (L output) sv_package.

Lemma sv_consistent : consistent sv_package.
Proof.
  assert (R : forall p t a e e0, child_match t a e = true -> answering t a p = [e0] -> holds_section p t a (Some e)).
  { intros p t a e e0 M H. split; [now apply XmlProofs.child_match_spec|]. exists e0. now apply only_filter. }
  constructor; cbn [sv_package o_version o_envelope o_references o_disks o_networks o_deploy o_system o_product o_annotation o_hardware_section o_profiles o_platform]; try reflexivity.
  1-6, 8: eapply R; vm_compute; reflexivity.
  - apply none_filter. vm_compute. reflexivity.
  - intros e [<-|[<-|[]]] _; vm_compute; discriminate.
Qed.
Example C68_example :
  consistent sv_package /\ hardware_ready (env_of env0 sv_package) (o_hardware sv_package) (o_hardware_section sv_package) /\
  images_measured sv_capacity /\ plain_units V1 (vmd_of sv_package) /\ read_as_printed env0 sv_print sv_parse sv_capacity 9 ex_world sv_package /\
  copyable ex_world [L "out"] (L "b.ovf") (L "b.mf") (names_in V1 sv_refs) ex_refs ex_data /\
  packable ex_world [L "tmp"; L "cot"] (L "a.ovf") (L "a.mf") (names_in V1 sv_refs) ex_refs ex_data /\
  kind_of (L "/out/a.ova") (L ".ova") /\
  snd (sv_write "/out/b.ovf") = Ok tt /\ snd (sv_write "/out/a.ova") = Ok tt /\ snd (sv_write "/out/a.box") = Err ENotImplemented /\
  column (NETWORK V1) (NETWORK_NAME V1) (Some sv_nets) = [Some (L "unused")] /\
  match factory env0 sv_digest sv_parse (fst (sv_write "/out/b.ovf")) (L "/tmp/new") (L "/out/b.ovf") [] with
  | Ok o => o_files o = [(L "sub/d.vmdk", OnDisk (L "/out") (L "sub/d.vmdk")); (L "c.txt", OnDisk (L "/out") (L "c.txt"))] /\ o_networks o = None /\ o_complaints o = [] /\
      option_map (fun s => map etext (echildren s)) (o_product o) = Some [Some (L "2.0")]
  | Err _ => False
  end.
Proof.
  assert (NM : names_in V1 sv_refs = ex_names) by (vm_compute; reflexivity).
  split; [exact sv_consistent|]. split.
  { change (env_of env0 sv_package) with env0. destruct C66_example as (H1 & H2 & H3 & _). constructor; [exact H1| |].
    - intros k i I. exact (proj2 (H2 k i I)).
    - intros F. elim (H3 F). }
  split; [intros x c H; injection H as <-; eexists; split; [vm_compute; reflexivity|]; split; [vm_compute; discriminate|reflexivity]|].
  split; [intros F; discriminate F|]. split.
  { intros e r l H. exists sv_written. split; [reflexivity|]. unfold sv_written. rewrite H. apply same_itself. }
  rewrite NM. split; [exact (proj1 C65_example)|]. split; [exact (proj1 C47_example)|].
  split; [apply (by_extension _ (L "ova")); [right; now left|]; exists (L "/out/"), (L "a"); split; [reflexivity|]; split; [right; now exists (L "/out")|]; split; [vm_compute; intuition discriminate|exists "a"%char; split; [now left|discriminate]]|].
  split; [vm_compute; reflexivity|]. split; [vm_compute; reflexivity|]. split; [vm_compute; reflexivity|]. split; [vm_compute; reflexivity|].
  assert (X : match factory env0 sv_digest sv_parse (fst (sv_write "/out/b.ovf")) (L "/tmp/new") (L "/out/b.ovf") [] with
    | Ok o => (o_files o, o_networks o, o_complaints o, option_map (fun s => map etext (echildren s)) (o_product o)) = ([(L "sub/d.vmdk", OnDisk (L "/out") (L "sub/d.vmdk")); (L "c.txt", OnDisk (L "/out") (L "c.txt"))], None, [], Some [Some (L "2.0")])
    | Err _ => False
    end) by (vm_compute; reflexivity).
  destruct (factory _ _ _ _ _ _ _) as [o|e]; [|exact X]. injection X as X1 X2 X3 X4. rewrite X1, X2, X3, X4. now repeat split.
Qed.
Print Assumptions C68_example.
