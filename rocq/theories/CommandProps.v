(** Whole runs of edit-product and edit-properties (C70): the package is read, changed and
    written; whoever opens the output finds what was asked for, and all else as it was. *)
From Coq Require Import List Ascii Bool ZArith String.
Import ListNotations.
From Verif Require Import PyBase PyBaseProofs PyDict XmlModel XmlSpec XmlProps NamesModel ItemModel ItemProps GenerateSpec HardwareModel HardwareSpec HardwareProps RereadSpec RereadProps
  ProfileModel ProfileSpec NetworkModel NetworkSpec DriveModel EnvPropModel EnvPropSpec EnvPropProps PropArgModel EditPropModel EditPropSpec EditPropProps InfoModel PlatformModel RefreshModel RefreshSpec ManifestSpec RawModel PathModel PathSpec TarModel TarSpec TarProps ArchiveProofs
  OvfWriteModel OvfWriteSpec OvfWriteProps OpenModel OpenSpec OpenProps SaveModel SaveSpec SaveProofs SaveProps CrashSpec CommandModel CommandSpec CommandProofs2 CommandProofs3.
From Verif Require ProductModel ProductSpec ProductProps.
Local Open Scope nat_scope.

(** edit-product: the class and the texts asked for are in the package that was written, the
    others are as in the input, and so are the attributes and all other elements of the product
    section, the environment properties, and everything else in the package. *)
Theorem C70_edit_product : forall E digest print parse capacity fuel w w' d u input same output o d2 u2 opts,
  let wd := path_of (d ++ [u]) in
  let w1 := after_opening w wd input in
  let v := o_version o in
  images_measured capacity -> (forall a x, hex_digest (digest a x)) ->
  (forall c, In c (d ++ [u]) -> proper c) -> (forall c, In c (d2 ++ [u2]) -> proper c) -> (forall t r, parse t = Some r -> ~ In NL (etag r)) ->
  factory E digest parse w wd input output = Ok o -> can_be_written E w1 wd (destination input output) o ->
  (forall o1, edit_product_package opts o = Ok o1 -> read_as_printed E print parse capacity fuel w1 o1) ->
  plain_texts (map fst (ProductSpec.texts v opts)) o ->
  command E digest print parse capacity fuel (edit_product_package opts) w wd input same output = (w', Ok tt) ->
  exists o2, factory E digest parse w' (path_of (d2 ++ [u2])) (destination input output) [] = Ok o2 /\
    class_of o2 = match ProductModel.o_class opts with Some c => Some c | None => class_of o end /\
    o_platform o2 = for_product_string (class_of o2) /\
    (forall tag x, In (tag, x) (ProductSpec.texts v opts) -> text_of tag o2 = match x with Some t => Some (Some t) | None => text_of tag o end) /\
    (forall s, o_product o = Some s -> exists s2, o_product o2 = Some s2 /\ forall k, k <> ProductModel.PRODUCT_CLASS v -> get_attr s2 k = get_attr s k) /\
    (o_product o <> None -> Forall2 same_content (other_in_product (asked_for v opts) o) (other_in_product (asked_for v opts) o2)) /\
    Forall2 same_content (properties_of o) (properties_of o2) /\
    same_package E w1 w' (with_product (o_product o2) (o_platform o2) o) o2.
Proof.
  intros E digest print parse capacity fuel w w' d u input same output o d2 u2 opts wd w1 v CAP HEX PD PD2 PP OPEN CW.
  exact (product_command E digest print parse capacity fuel w w' d u input same output o d2 u2 CAP HEX PD PD2 PP OPEN CW opts).
Qed.
Print Assumptions C70_edit_product.

(** edit-properties: every property asked for, as it was asked for last, is in the package that
    was written, with a value that obeys its type and qualifiers; properties that were not asked
    for, the class and the rest of the product section, and everything else in the package are as
    in the input, but for the transports if these were asked for. *)
Theorem C70_edit_properties : forall E digest print parse capacity fuel w w' d u input same output o d2 u2 force typed a,
  let wd := path_of (d ++ [u]) in
  let w1 := after_opening w wd input in
  let v := o_version o in
  images_measured capacity -> (forall a x, hex_digest (digest a x)) ->
  (forall c, In c (d ++ [u]) -> proper c) -> (forall c, In c (d2 ++ [u2]) -> proper c) -> (forall t r, parse t = Some r -> ~ In NL (etag r)) ->
  factory E digest parse w wd input output = Ok o -> can_be_written E w1 wd (destination input output) o ->
  (forall o1, edit_properties_package force typed a o = Ok o1 -> read_as_printed E print parse capacity fuel w1 o1 /\ plain_properties o1) ->
  command E digest print parse capacity fuel (edit_properties_package force typed a) w wd input same output = (w', Ok tt) ->
  exists o2, factory E digest parse w' (path_of (d2 ++ [u2])) (destination input output) [] = Ok o2 /\
    (forall i key value ty, nth_error (ep_properties (a_edit a)) i = Some (key, value, ty) ->
       (forall j x t, nth_error (ep_properties (a_edit a)) j = Some (key, x, t) -> j <= i) ->
       exists p, with_key_in key o2 = [p] /\
         (forall x, value = Some x -> exists y, value_of v p = Some y /\ stored_as (get_attr_or p (PROP_TYPE v) []) x y /\
            conforms (get_attr_or p (PROP_TYPE v) []) (get_attr_or p (PROP_QUAL v) []) y) /\
         (forall t, ty = Some t -> get_attr p (PROP_TYPE v) = Some t) /\
         (forall b, a_user a = Some b -> get_attr p (PROP_USER_CONFIGABLE v) = Some (if b then L "true" else L "false")) /\
         (forall n, nth_error (ep_labels (a_edit a)) i = Some n -> exists e, with_tag (PROPERTY_LABEL v) p = [e] /\ etext e = Some n) /\
         (forall n, nth_error (ep_descriptions (a_edit a)) i = Some n -> exists e, with_tag (PROPERTY_DESC v) p = [e] /\ etext e = Some n)) /\
    (something_given a -> forall key, (forall j x t, nth_error (ep_properties (a_edit a)) j <> Some (key, x, t)) ->
       ~ config_sets (literal_cli_string (o_platform o)) a key -> Forall2 same_content (with_key_in key o) (with_key_in key o2)) /\
    class_of o2 = class_of o /\
    (forall s, o_product o = Some s -> exists s2, o_product o2 = Some s2 /\ forall k, get_attr s2 k = get_attr s k) /\
    (o_product o <> None -> Forall2 same_content (other_in_product [PROPERTY v] o) (other_in_product [PROPERTY v] o2)) /\
    (ep_transports (a_edit a) <> [] -> get_attr (o_hardware_section o2) (ENVIRONMENT_TRANSPORT v) = Some (join (L " ") (ep_transports (a_edit a)))) /\
    same_package E w1 w' (with_product (o_product o2) (o_platform o) (with_transports (ep_transports (a_edit a)) o)) o2.
Proof.
  intros E digest print parse capacity fuel w w' d u input same output o d2 u2 force typed a wd w1 v CAP HEX PD PD2 PP OPEN CW.
  exact (properties_command E digest print parse capacity fuel w w' d u input same output o d2 u2 CAP HEX PD PD2 PP OPEN CW force typed a).
Qed.
Print Assumptions C70_edit_properties.

(** A command whose work is refused writes nothing: no archive is changed, and no file but in the
    working directory (or, C32, in one whose name begins like it). *)
Theorem C70_refused : forall E digest print parse capacity fuel edit w d u input same output o e,
  (forall c, In c (d ++ [u]) -> proper c) ->
  factory E digest parse w (path_of (d ++ [u])) input output = Ok o -> edit o = Err e ->
  exists w', command E digest print parse capacity fuel edit w (path_of (d ++ [u])) input same output = (w', Err e) /\
    unchanged_but w w' (beside d u) (fun _ => False).
Proof.
  intros E digest print parse capacity fuel edit w d u input same output o e PD OPEN ED. eexists. split; [unfold command; rewrite OPEN, ED; reflexivity|].
  destruct (opened_confined w d u input PD) as [Q1 Q2]. split; [exact Q1|]. intros t H. apply H. exact (Q2 t).
Qed.
Print Assumptions C70_refused.

(** ** A router in an archive, with two profiles and two properties *)
Definition cm_product : elem := Elem (PRODUCT_SECTION V1) [(ProductModel.PRODUCT_CLASS V1, L "com.cisco.iosv"); (L "note", L "kept")] None None
  [Elem (INFO V1) [] (Some (L "about")) None []; Elem (ProductModel.VERSION V1) [] (Some (L "15.1")) None []; Elem (ProductModel.VENDOR V1) [] (Some (L "Cisco")) None [];
   prop (L "hostname") (L "string") (L "MinLen(2) MaxLen(8)") (L "router"); prop (L "login") (L "boolean") [] (L "true")].
Definition cm_system : elem := Elem (VIRTUAL_SYSTEM V1) [] None None [cm_product; cpus_and_memory].
Definition cm_refs : elem := Elem (REFERENCES V1) [] None None [sv_file "sub/d.vmdk" "file1"].
Definition cm_root : elem := Elem (envelope_tag V1) [] None None [cm_refs; sv_disks; sv_deploy; cm_system].
Definition cm_edited (edit : ovf -> result ovf) : elem :=
  match (do o <- factory env0 sv_digest (fun _ => Some cm_root) ex_world (L "/tmp/cot") (L "/home/a.ova") []; do o1 <- edit o;
         prepare env0 sv_capacity 9 (after_opening ex_world (L "/tmp/cot") (L "/home/a.ova")) o1) with
  | Ok (e, _, _) => xml_reindent e 0
  | Err _ => cm_root
  end.
Definition cm_parse (edit : ovf -> result ovf) (t : str) : option elem := if str_eqb t (L "old") then Some cm_root else Some (cm_edited edit).
Definition cm_open : result ovf := factory env0 sv_digest (cm_parse Ok) ex_world (L "/tmp/cot") (L "/home/a.ova") (L "/out/b.ovf").
Definition cm_run (edit : ovf -> result ovf) (output : string) : world * result unit :=
  command env0 sv_digest sv_print (cm_parse edit) sv_capacity 9 edit ex_world (L "/tmp/cot") (L "/home/a.ova") false (L output).
Definition cm_again (edit : ovf -> result ovf) (output : string) : result ovf :=
  factory env0 sv_digest (cm_parse edit) (fst (cm_run edit output)) (L "/tmp/new") (L output) [].
Definition cm_product_edit : ovf -> result ovf := edit_product_package ProductProps.opts1.
Definition cm_properties_edit : ovf -> result ovf := edit_properties_package false [L "maybe"; L " y "] cmd1.
Definition cm_package : ovf := mkOvf V1 cm_root cm_refs (Some sv_disks) None (Some sv_deploy) cm_system (Some cm_product) None cpus_and_memory
  [L "small"; L "big"] two_devices (for_product_string (Some (L "com.cisco.iosv"))) [(L "sub/d.vmdk", InTar (L "/home/a.ova") (L "./sub/d.vmdk"))] [].
Lemma cm_opened : forall edit, factory env0 sv_digest (cm_parse edit) ex_world (path_of ([L "tmp"] ++ [L "cot"])) (L "/home/a.ova") (L "/out/b.ovf") = Ok cm_package.
Proof. intros edit. vm_compute. reflexivity. Qed.
Lemma cm_read : forall edit o1, edit cm_package = Ok o1 ->
  read_as_printed env0 sv_print (cm_parse edit) sv_capacity 9 (after_opening ex_world (path_of ([L "tmp"] ++ [L "cot"])) (L "/home/a.ova")) o1.
Proof.
  intros edit o1 ED e r l H. exists (cm_edited edit). split; [reflexivity|]. unfold cm_edited.
  assert (F : factory env0 sv_digest (fun _ => Some cm_root) ex_world (L "/tmp/cot") (L "/home/a.ova") [] = Ok cm_package) by (vm_compute; reflexivity).
  rewrite F. cbn [rbind]. rewrite ED. cbn [rbind]. change (path_of ([L "tmp"] ++ [L "cot"])) with (L "/tmp/cot") in H. rewrite H. apply same_itself.
Qed.
Lemma cm_writable : can_be_written env0 (after_opening ex_world (path_of ([L "tmp"] ++ [L "cot"])) (L "/home/a.ova")) (path_of ([L "tmp"] ++ [L "cot"])) (L "/out/b.ovf") cm_package.
Proof.
  assert (P1 : plain_name (L "sub/d.vmdk") [L "sub"; L "d.vmdk"]) by (split; [discriminate|]; split; [intros c [<-|[<-|[]]]; repeat split; vm_compute; intuition discriminate|reflexivity]).
  constructor.
  - change (env_of env0 cm_package) with env0. change (o_hardware cm_package) with two_devices. destruct C66_example as (_ & H2 & _). intros k i I. exact (proj2 (H2 k i I)).
  - change (plain_items V1 cpus_and_memory). intros x c Hx Hi Hc. destruct Hx as [<-|[<-|[<-|[<-|[]]]]]; [destruct Hc|..];
      repeat (destruct Hc as [<-|Hc]; [split; [reflexivity|]; apply mem_str_In; vm_compute; reflexivity|]); destruct Hc.
  - intros F. discriminate F.
  - apply (fits_descriptor _ _ _ _ [L "out"] (L "b") ex_data); [reflexivity|discriminate| | | |].
    + intros c [<-|[]]. repeat split; vm_compute; intuition discriminate.
    + split; [vm_compute; intuition discriminate|]. exists "b"%char. split; [now left|discriminate].
    + vm_compute. intuition discriminate.
    + assert (NM : names_in V1 cm_refs = [L "sub/d.vmdk"]) by (vm_compute; reflexivity). change (o_version cm_package) with V1. change (o_references cm_package) with cm_refs. rewrite NM.
      change (o_files cm_package) with [(L "sub/d.vmdk", InTar (L "/home/a.ova") (L "./sub/d.vmdk"))]. constructor.
      * repeat constructor. intros [].
      * repeat constructor. intros [].
      * intros h. reflexivity.
      * intros h [<-|[]]. split; [now exists [L "sub"; L "d.vmdk"]|]. repeat split; vm_compute; intuition discriminate.
      * intros h r [X|[]]; injection X as <- <-. vm_compute. reflexivity.
      * intros h d n [X|[]]; discriminate X.
      * intros h t n [X|[]]; injection X as <- <- <-. reflexivity.
Qed.
Lemma cm_roots : forall edit t r, edit = cm_product_edit \/ edit = cm_properties_edit -> cm_parse edit t = Some r -> ~ In NL (etag r).
Proof.
  intros edit t r ED H. assert (X : etag r = etag cm_root).
  { unfold cm_parse in H. assert (Y : forall x, Some x = Some r -> r = x) by (intros x Q; now inversion Q). destruct (str_eqb t (L "old")); apply Y in H; rewrite H; [reflexivity|]. clear H. destruct ED as [-> | ->]; vm_compute; reflexivity. }
  rewrite X. clear. vm_compute. intuition discriminate.
Qed.
Definition some_package (r : result ovf) : ovf := match r with Ok o => o | Err _ => cm_package end.

(** The hypotheses of both theorems hold; the commands succeed; the class and the texts, the
    properties and the transports are read from the output. *)
Example C70_example :
  images_measured sv_capacity /\ (forall a x, hex_digest (sv_digest a x)) /\
  (forall edit, edit = cm_product_edit \/ edit = cm_properties_edit ->
    (forall t r, cm_parse edit t = Some r -> ~ In NL (etag r)) /\
    factory env0 sv_digest (cm_parse edit) ex_world (path_of ([L "tmp"] ++ [L "cot"])) (L "/home/a.ova") (L "/out/b.ovf") = Ok cm_package /\
    snd (cm_run edit "/out/b.ovf") = Ok tt /\
    forall o1, edit cm_package = Ok o1 -> read_as_printed env0 sv_print (cm_parse edit) sv_capacity 9 (after_opening ex_world (path_of ([L "tmp"] ++ [L "cot"])) (L "/home/a.ova")) o1) /\
  can_be_written env0 (after_opening ex_world (path_of ([L "tmp"] ++ [L "cot"])) (L "/home/a.ova")) (path_of ([L "tmp"] ++ [L "cot"])) (L "/out/b.ovf") cm_package /\
  plain_texts (map fst (ProductSpec.texts V1 ProductProps.opts1)) cm_package /\
  (forall o1, cm_properties_edit cm_package = Ok o1 -> plain_properties o1) /\
  (let o2 := some_package (cm_again cm_product_edit "/out/b.ovf") in
   class_of o2 = Some (L "com.cisco.csr1000v") /\ text_of (ProductModel.VERSION V1) o2 = Some (Some (L "16.1")) /\ text_of (ProductModel.VENDOR V1) o2 = Some (Some (L "Cisco"))
   /\ option_map (fun s => get_attr s (L "note")) (o_product o2) = Some (Some (L "kept")) /\ map (key_of V1) (properties_of o2) = [Some (L "hostname"); Some (L "login")]
   /\ o_complaints o2 = []) /\
  (let o2 := some_package (cm_again cm_properties_edit "/out/b.ovf") in
   map (fun p => (key_of V1 p, value_of V1 p)) (properties_of o2) =
     [(Some (L "hostname"), Some (L "router")); (Some (L "login"), Some (L "false")); (Some (L "domain"), Some (L "example.com"))]
   /\ class_of o2 = Some (L "com.cisco.iosv") /\ text_of (ProductModel.VERSION V1) o2 = Some (Some (L "15.1"))
   /\ get_attr (o_hardware_section o2) (ENVIRONMENT_TRANSPORT V1) = Some (L "iso com.vmware.guestInfo") /\ o_complaints o2 = []).
Proof.
  split; [intros x c H; injection H as <-; eexists; split; [vm_compute; reflexivity|]; split; [vm_compute; discriminate|reflexivity]|].
  split; [intros a x; split; [discriminate|]; intros c [<-|[]]; vm_compute; tauto|].
  split.
  { intros edit ED. split; [intros t r; exact (cm_roots edit t r ED)|]. split; [apply cm_opened|]. split; [destruct ED as [-> | ->]; vm_compute; reflexivity|]. apply cm_read. }
  split; [exact cm_writable|]. split.
  { intros s e H He T. injection H as <-. cbn [echildren cm_product In] in He. repeat (destruct He as [<-|He]; [first [reflexivity|exfalso; revert T; vm_compute; intuition discriminate]|]). destruct He. }
  split; [|split; vm_compute; repeat split].
  intros o1 H p e Hp He. assert (X : forallb (fun p => forallb (fun e => match echildren e with [] => true | _ => false end) (echildren p)) (properties_of (some_package (cm_properties_edit cm_package))) = true) by (vm_compute; reflexivity).
  rewrite H in X. cbn [some_package] in X. rewrite forallb_forall in X. specialize (X p Hp). cbn beta in X. rewrite forallb_forall in X. specialize (X e He). cbn beta in X. now destruct (echildren e).
Qed.
Print Assumptions C70_example.
