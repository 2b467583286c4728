(** The names of XML elements and attributes (C76). *)
From Coq Require Import List Ascii String Bool QArith.
Import ListNotations.
From Verif Require Import PyBase PyBaseProofs PyDict XmlModel NamesModel ItemModel HardwareModel ProfileModel NetworkModel DriveModel
  EnvPropModel EditPropModel InfoModel OpenModel NameHelperModel NameHelperSpec.
From Verif Require ProductModel EditHwModel NameHelperProofs.
Local Open Scope list_scope.

(** Whatever was looked up before, on packages of any version and in any order, a lookup gives
    the name of the version of the package it is made on; a name that version has not is an
    AttributeError. *)
Theorem C76_history : forall f l, Forall2 (fun p r => match r with
    | Ok s => names (fst p) (snd p) s
    | Err e => e = EAttributeError /\ forall s, ~ names (fst p) (snd p) s
    end) l (fst (lookups (S (S f)) no_caches l)).
Proof.
  intros f l. rewrite (proj1 (NameHelperProofs.lookups_answer f l _ NameHelperProofs.good_none)).
  induction l as [|p l IH]; constructor; [apply NameHelperProofs.answer_spec|exact IH].
Qed.
Print Assumptions C76_history.

(** A name means one thing in one version. *)
Theorem C76_one_meaning : forall v n s s', names v n s -> names v n s' -> s = s'.
Proof. exact NameHelperProofs.names_det. Qed.
Print Assumptions C76_one_meaning.

(** The version of the standard decides: below 1.0, from 1.0 and from 2.0. *)
Theorem C76_version : forall x : Q, (name_helper x = V0 <-> (x < 1)%Q) /\ (name_helper x = V1 <-> (1 <= x < 2)%Q) /\ (name_helper x = V2 <-> (2 <= x)%Q).
Proof.
  intros x. unfold name_helper. destruct (Qle_bool 1 x) eqn:A; destruct (Qle_bool 2 x) eqn:B; cbn [negb].
  all: try (apply Qle_bool_iff in A); try (apply Qle_bool_iff in B).
  all: try (assert (A' : (x < 1)%Q) by (apply Qnot_le_lt; intros C; apply Qle_bool_iff in C; rewrite C in A; discriminate)).
  all: try (assert (B' : (x < 2)%Q) by (apply Qnot_le_lt; intros C; apply Qle_bool_iff in C; rewrite C in B; discriminate)).
  - repeat split; try discriminate; try (intros C; exfalso; exact (Qlt_not_le _ _ C A)); try (intros [_ C]; exfalso; exact (Qlt_not_le _ _ C B)); auto.
  - repeat split; try discriminate; auto; try (intros C; exfalso; exact (Qlt_not_le _ _ C A)). intros C; exfalso; exact (Qlt_not_le _ _ B' C).
  - exfalso. apply (Qlt_not_le _ _ A'). apply (Qle_trans _ 2); [discriminate|exact B].
  - repeat split; try discriminate; auto.
    + intros [C _]; exfalso; exact (Qlt_not_le _ _ A' C).
    + intros C; exfalso; exact (Qlt_not_le _ _ B' C).
Qed.
Print Assumptions C76_version.

(** The children of an item are written in the order the versions ask for: alphabetical from
    1.0, and in 0.9 an order of its own; whatever was looked up before. *)
Theorem C76_children : forall f v l, fst (ordered_children (S (S f)) v (snd (lookups (S (S f)) no_caches l))) = map Ok (ITEM_CHILDREN v).
Proof.
  intros f v l. unfold ordered_children.
  rewrite (proj1 (NameHelperProofs.lookups_answer f _ _ (proj2 (NameHelperProofs.lookups_answer f l _ NameHelperProofs.good_none)))).
  destruct v; vm_compute; reflexivity.
Qed.
Print Assumptions C76_children.

(** The names the models of the other functions write out are the ones a lookup gives. *)
Theorem C76_model_names : forall v, Forall (fun p => names v (L (fst p)) (snd p))
  [("OVF", OVF_NS v); ("RASD", RASD v); ("VSSD", VSSD v); ("SASD", SASD v); ("EPASD", EPASD v);
   ("ITEM", ITEM v); ("STORAGE_ITEM", STORAGE_ITEM v); ("ETHERNET_PORT_ITEM", ETHERNET_PORT_ITEM v); ("ITEM_CONFIG", ITEM_CONFIG v);
   ("INFO", INFO v); ("SYSTEM", SYSTEM v); ("ADDRESS", ADDRESS); ("ADDRESS_ON_PARENT", ADDRESS_ON_PARENT);
   ("ALLOCATION_UNITS", ALLOCATION_UNITS); ("CAPTION", CAPTION); ("CONNECTION", CONNECTION); ("ITEM_DESCRIPTION", ITEM_DESCRIPTION);
   ("ELEMENT_NAME", ELEMENT_NAME v); ("HOST_RESOURCE", HOST_RESOURCE); ("INSTANCE_ID", INSTANCE_ID v); ("PARENT", PARENT);
   ("RESOURCE_SUB_TYPE", RESOURCE_SUB_TYPE); ("RESOURCE_TYPE", RESOURCE_TYPE); ("VIRTUAL_QUANTITY", VIRTUAL_QUANTITY);
   ("FILE", FILE v); ("FILE_ID", FILE_ID v); ("FILE_HREF", FILE_HREF v); ("FILE_SIZE", FILE_SIZE v); ("DISK_SECTION", DISK_SECTION v);
   ("DISK", DISK v); ("DISK_ID", DISK_ID v); ("DISK_FILE_REF", DISK_FILE_REF v); ("DISK_CAPACITY", DISK_CAPACITY v);
   ("DISK_CAP_UNITS", DISK_CAP_UNITS v); ("DISK_FORMAT", DISK_FORMAT v); ("OLD_HOST_RSRC_FILE_REF", OLD_FILE_REF);
   ("OLD_HOST_RSRC_DISK_REF", OLD_DISK_REF); ("HOST_RSRC_FILE_REF", FILE_REF v); ("HOST_RSRC_DISK_REF", DISK_REF v);
   ("VIRTUAL_HW_SECTION", VIRTUAL_HW_SECTION v); ("ENVIRONMENT_TRANSPORT", ENVIRONMENT_TRANSPORT v);
   ("PRODUCT_SECTION", PRODUCT_SECTION v); ("PROPERTY", PROPERTY v); ("PROP_KEY", PROP_KEY v); ("PROP_VALUE", PROP_VALUE v);
   ("PROP_QUAL", PROP_QUAL v); ("PROP_TYPE", PROP_TYPE v); ("PROP_USER_CONFIGABLE", PROP_USER_CONFIGABLE v);
   ("PROPERTY_LABEL", PROPERTY_LABEL v); ("PROPERTY_DESC", PROPERTY_DESC v); ("ANNOTATION_SECTION", ANNOTATION_SECTION v);
   ("ANNOTATION", ANNOTATION v); ("EULA_SECTION", EULA_SECTION v); ("EULA_LICENSE", EULA_LICENSE v); ("NETWORK_SECTION", NETWORK_SECTION v);
   ("NETWORK", NETWORK v); ("NETWORK_NAME", NETWORK_NAME v); ("NWK_DESC", NWK_DESC v); ("REFERENCES", REFERENCES v);
   ("PRODUCT_CLASS", ProductModel.PRODUCT_CLASS v); ("PRODUCT", ProductModel.PRODUCT v); ("VENDOR", ProductModel.VENDOR v);
   ("VERSION", ProductModel.VERSION v); ("FULL_VERSION", ProductModel.FULL_VERSION v); ("PRODUCT_URL", ProductModel.PRODUCT_URL v);
   ("VENDOR_URL", ProductModel.VENDOR_URL v); ("APPLICATION_URL", ProductModel.APPLICATION_URL v); ("DEPLOY_OPT_SECTION", DEPLOY_OPT_SECTION v);
   ("CONFIG", CONFIG v); ("CONFIG_ID", CONFIG_ID v); ("CONFIG_DEFAULT", CONFIG_DEFAULT v); ("CFG_LABEL", CFG_LABEL v);
   ("CFG_DESC", CFG_DESC v); ("VIRTUAL_SYSTEM", VIRTUAL_SYSTEM v)]%string.
Proof.
  intros v. apply Forall_forall. intros p I. apply NameHelperProofs.plain_names, NameHelperProofs.opt_b_eq. revert p I.
  apply (proj1 (forallb_forall (fun p : string * str => NameHelperProofs.opt_b (NameHelperProofs.plain v (L (fst p))) (snd p)) _)).
  destruct v; vm_compute; reflexivity.
Qed.
Print Assumptions C76_model_names.

Theorem C76_system_type : forall E, names (e_ver E) (L "VIRTUAL_SYSTEM_TYPE") (EditHwModel.VIRTUAL_SYSTEM_TYPE E).
Proof. intros E. replace (EditHwModel.VIRTUAL_SYSTEM_TYPE E) with (in_ns vssd_uri (L "VirtualSystemType")) by reflexivity. apply n_system_type. Qed.
Print Assumptions C76_system_type.

(** Version 0.9 tells its sections apart by the attribute xsi:type, later ones by their name. *)
Theorem C76_section_types : forall v,
  NETWORK_SECTION_ATTRIB v = section_type v "NetworkSection" /\ DISK_SECTION_ATTRIB v = section_type v "DiskSection" /\
  ANNOTATION_SECTION_ATTRIB v = section_type v "AnnotationSection" /\ VIRTUAL_SYSTEM_ATTRIB v = section_type v "VirtualSystem" /\
  PRODUCT_SECTION_ATTRIB v = section_type v "ProductSection" /\ EULA_SECTION_ATTRIB v = section_type v "EulaSection" /\
  VIRTUAL_HW_SECTION_ATTRIB v = section_type v "VirtualHardwareSection".
Proof. intros v. destruct v; repeat split; vm_compute; reflexivity. Qed.
Print Assumptions C76_section_types.

(** Device types have the numbers of the CIM schema. *)
Theorem C76_numbers : RES_MAP = map (fun p => (L (fst p), L (snd p))) cim_numbers.
Proof. vm_compute. reflexivity. Qed.
Print Assumptions C76_numbers.

(** Only version 2 has namespaces of its own for storage and Ethernet ports. *)
Theorem C76_namespace_of_type : forall v rt,
  (v <> V2 -> namespace_for_resource_type v rt = in_ns rasd_uri []) /\
  (v = V2 ->
    (rt = L "10" -> namespace_for_resource_type v rt = in_ns epasd_uri []) /\
    (rt = L "15" \/ rt = L "17" -> namespace_for_resource_type v rt = in_ns sasd_uri []) /\
    (~ In rt [L "10"; L "15"; L "17"] -> namespace_for_resource_type v rt = in_ns rasd_uri [])).
Proof.
  intros v rt. split.
  - intros N. unfold namespace_for_resource_type. destruct v; try (now elim N);
      destruct (str_eqb rt (L "10")); try (vm_compute; reflexivity); destruct (str_eqb rt (L "17") || str_eqb rt (L "15")); vm_compute; reflexivity.
  - intros ->. split; [|split].
    + intros ->. vm_compute. reflexivity.
    + intros [-> | ->]; vm_compute; reflexivity.
    + intros N. unfold namespace_for_resource_type.
      destruct (str_eqb rt (L "10")) eqn:A; [apply str_eqb_eq in A; elim N; subst; cbn; auto|].
      destruct (str_eqb rt (L "17")) eqn:B; [apply str_eqb_eq in B; elim N; subst; cbn; auto|].
      destruct (str_eqb rt (L "15")) eqn:C; [apply str_eqb_eq in C; elim N; subst; cbn; auto|]. vm_compute. reflexivity.
Qed.
Print Assumptions C76_namespace_of_type.

(** The tag of an item and the namespace of its children go together. *)
Theorem C76_tag_and_namespace : forall v ns t, item_tag_for_namespace v ns = Ok t -> namespace_for_item_tag v t = Some ns.
Proof.
  intros v ns t H. unfold item_tag_for_namespace in H.
  destruct (str_eqb ns (RASD v)) eqn:A. { apply str_eqb_eq in A as ->. injection H as <-. destruct v; vm_compute; reflexivity. }
  destruct (str_eqb ns (SASD v)) eqn:B. { apply str_eqb_eq in B as ->. injection H as <-. destruct v; vm_compute in A; try discriminate; vm_compute; reflexivity. }
  destruct (str_eqb ns (EPASD v)) eqn:C; [|discriminate]. apply str_eqb_eq in C as ->. injection H as <-. destruct v; vm_compute in A; try discriminate; vm_compute; reflexivity.
Qed.
Print Assumptions C76_tag_and_namespace.
Theorem C76_every_type_has_a_tag : forall v rt, exists t, item_tag_for_namespace v (namespace_for_resource_type v rt) = Ok t.
Proof.
  intros v rt. unfold namespace_for_resource_type. destruct (str_eqb rt (L "10")); [|destruct (str_eqb rt (L "17") || str_eqb rt (L "15"))];
    destruct v; eexists; vm_compute; reflexivity.
Qed.
Print Assumptions C76_every_type_has_a_tag.

(** A Disk that add-disk writes names its format and its file; a section made for it says what
    it is. *)
Theorem C76_new_disk : forall fuel v m im file_id disk m' d, add_disk fuel v m im file_id (L "harddisk") disk = Ok (m', d) ->
  exists sec j e, m_disks m' = Some sec /\ d = Some j /\ nth_error (echildren sec) j = Some e /\
    etag e = in_ns (ovf_uri v) (L "Disk") /\
    get_attr e (in_ns (ovf_uri v) (L "fileRef")) = Some file_id /\
    get_attr e (in_ns (ovf_uri v) (L "format")) = Some (L "http://www.vmware.com/interfaces/specifications/vmdk.html#streamOptimized") /\
    (disk = None -> get_attr e (in_ns (ovf_uri v) (L "diskId")) = Some file_id) /\
    (m_disks m = None -> disk = None -> exists info rest, names v (L "DISK_SECTION") (etag sec) /\ eattrib sec = section_type v "DiskSection" /\
      echildren sec = info :: rest /\ etag info = in_ns (ovf_uri v) (L "Info") /\ etext info = Some (L "Virtual disk information")).
Proof. exact NameHelperProofs.new_disk. Qed.
Print Assumptions C76_new_disk.

(** ** Example: the same names on packages of three versions, in turn *)
Example C76_example :
  fst (lookups 2 no_caches [(V0, L "NETWORK_SECTION"); (V2, L "NETWORK_SECTION"); (V0, L "NETWORK_SECTION"); (V1, L "SASD"); (V2, L "SASD");
    (V1, L "BUS_NUMBER"); (V0, L "BUS_NUMBER"); (V1, L "__deepcopy__"); (V1, L "Ovf")]) =
  [Ok (L "{http://www.vmware.com/schema/ovf/1/envelope}Section"); Ok (L "{http://schemas.dmtf.org/ovf/envelope/2}NetworkSection");
   Ok (L "{http://www.vmware.com/schema/ovf/1/envelope}Section"); Ok (L "{" ++ rasd_uri ++ L "}"); Ok (L "{" ++ sasd_uri ++ L "}");
   Err EAttributeError; Ok (L "BusNumber"); Err EAttributeError; Ok (L "{http://schemas.dmtf.org/ovf/envelope/1}")].
Proof. vm_compute. reflexivity. Qed.
Example C76_new_disk_example : exists m' d,
  add_disk 10 V1 (mkVmd (Elem (L "refs") [] None None []) None [] []) (mkImage (L "/tmp/d.vmdk") (L "d.vmdk") 1024 1048576) (L "f1") (L "harddisk") None = Ok (m', d).
Proof. eexists. eexists. vm_compute. reflexivity. Qed.
