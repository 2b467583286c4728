(** C54: edit-product changes the product information asked for and nothing else. *)
From Coq Require Import Lia.
From Verif Require Import PyBase PyDict XmlModel XmlSpec XmlProofs NamesModel ProfileModel ProfileSpec NetworkModel EnvPropModel EnvPropSpec EnvPropProps PlatformModel ProductModel ProductSpec ProductProofs.

(** A successful run replaces the product section, which is made if there is none, by one
    with the class and texts asked for; everything else in it and around it stays. *)
Theorem C54_edit : forall v vs m o m', open_product v vs = Ok m -> edit_product v o m = Ok m' ->
  exists sec sec', section_replaced v vs (pv_vs m') sec sec' /\ section_edited v o sec sec'.
Proof. intros v vs m o m' O H. exact (proj2 (edit_spec v vs m o m' O H)). Qed.
Print Assumptions C54_edit.

(** Each text reads back as it was given, or as before. *)
Theorem C54_reads : forall v vs m o m' tag x, open_product v vs = Ok m -> edit_product v o m = Ok m' -> In (tag, x) (texts v o) ->
  product_text v m' tag = match x with Some t => Ok (Some t) | None => product_text v m tag end.
Proof. exact edit_reads. Qed.
Print Assumptions C54_reads.

(** What is read: the text of the first such element of the section, "" if it has no text,
    nothing if there is no such element or no section. *)
Theorem C54_getter : forall v vs m tag, open_product v vs = Ok m ->
  ((forall x, In x (echildren vs) -> ~ is_section v x) -> product_text v m tag = Ok None) /\
  (forall sec, In sec (echildren vs) -> is_section v sec ->
     (with_tag tag sec = [] -> product_text v m tag = Ok None) /\
     (forall e r, with_tag tag sec = e :: r -> product_text v m tag = Ok (Some (match etext e with Some t => t | None => [] end)))).
Proof. exact text_read. Qed.
Print Assumptions C54_getter.

(** So does the class, and the platform is the one of the class. *)
Theorem C54_class : forall v vs m o m', open_product v vs = Ok m -> edit_product v o m = Ok m' ->
  exists c, product_class v m' = Ok c /\ pv_platform m' = for_product_string c /\
    match o_class o with Some x => c = Some x | None => product_class v m = Ok c end.
Proof. exact edit_class. Qed.
Print Assumptions C54_class.

(** The environment properties and the rest of the virtual system are untouched. *)
Theorem C54_properties : forall v vs m o m', open_product v vs = Ok m -> edit_product v o m = Ok m' ->
  properties v (pv_vs m') = properties v vs /\ outside_product v (pv_vs m') = outside_product v vs.
Proof. exact edit_properties. Qed.
Print Assumptions C54_properties.

(** A VM opened from the result is the VM that was edited. *)
Theorem C54_reopened : forall v vs m o m', open_product v vs = Ok m -> edit_product v o m = Ok m' -> open_product v (pv_vs m') = Ok m'.
Proof. intros v vs m o m' O H. exact (proj1 (edit_spec v vs m o m' O H)). Qed.
Print Assumptions C54_reopened.

(** The same edit again changes nothing. *)
Theorem C54_again : forall v vs m o m', open_product v vs = Ok m -> edit_product v o m = Ok m' -> edit_product v o m' = Ok m'.
Proof. exact edit_again. Qed.
Print Assumptions C54_again.

(** A run fails only if no text is given, or if an element to be set is there twice. *)
Theorem C54_fails : forall v vs m o e, open_product v vs = Ok m -> edit_product v o m = Err e ->
  (e = EInvalidInput /\ nothing_given o) \/ (e = ELookupError /\ doubled v o vs).
Proof. exact edit_fails. Qed.
Print Assumptions C54_fails.
Theorem C54_no_work : forall v m o, nothing_given o -> edit_product v o m = Err EInvalidInput.
Proof. intros v m o H. apply ready_spec in H. unfold edit_product. now rewrite H. Qed.
Print Assumptions C54_no_work.

(** ** Examples *)
Definition text_elem (tag : str) (t : string) : elem := Elem tag [] (Some (L t)) None [].
(** A router with a product, a version and a property; a virtual system without product section *)
Definition router_section : elem :=
  Elem (PRODUCT_SECTION V1) [(PRODUCT_CLASS V1, L "com.cisco.iosv")] None None
    [text_elem (INFO V1) "about"; text_elem (PRODUCT V1) "IOSv"; text_elem (VERSION V1) "15.4"; text_elem (APPLICATION_URL V1) "http://r";
     prop (L "hostname") (L "string") [] (L "router")].
Definition router : elem := system [router_section; text_elem (L "Other") "x"].
Definition bare : elem := system [text_elem (L "Other") "x"].
Definition opts1 : options := mkOptions (Some (L "com.cisco.csr1000v")) None None (Some (L "16.1")) None None None (Some (L "http://x")).
Definition edited_vs (vs : elem) (o : options) : option (elem * platform) :=
  match (do m <- open_product V1 vs; edit_product V1 o m) with Ok m => Some (pv_vs m, pv_platform m) | Err _ => None end.
Example C54_example :
  edited_vs router opts1 = Some (system
    [Elem (PRODUCT_SECTION V1) [(PRODUCT_CLASS V1, L "com.cisco.csr1000v")] None None
       [text_elem (INFO V1) "about"; text_elem (PRODUCT V1) "IOSv"; text_elem (VERSION V1) "16.1"; text_elem (APPLICATION_URL V1) "http://x";
        prop (L "hostname") (L "string") [] (L "router")]; text_elem (L "Other") "x"], CSR1000V) /\
  edited_vs bare opts1 = Some (system
    [text_elem (L "Other") "x"; Elem (PRODUCT_SECTION V1) [(PRODUCT_CLASS V1, L "com.cisco.csr1000v")] None None
       [text_elem (INFO V1) "Product Information"; text_elem (VERSION V1) "16.1"; text_elem (APPLICATION_URL V1) "http://x"]], CSR1000V).
Proof. vm_compute. split; reflexivity. Qed.
(** Failures: a second Version, no text *)
Definition two_versions : elem :=
  system [Elem (PRODUCT_SECTION V1) [] None None [text_elem (VERSION V1) "1"; text_elem (PRODUCT V1) "p"; text_elem (VERSION V1) "2"]].
Example C54_fails_example :
  (exists m, open_product V1 two_versions = Ok m /\ edit_product V1 opts1 m = Err ELookupError /\
     exists m', edit_product V1 (mkOptions None (Some (L "q")) None None None None None None) m = Ok m') /\
  nothing_given (mkOptions None None (Some []) None None None None None).
Proof.
  split.
  - eexists. split; [vm_compute; reflexivity|]. split; [vm_compute; reflexivity|]. eexists. vm_compute. reflexivity.
  - intros x H. cbn in H. intuition (subst; auto).
Qed.

(** ** What is false *)

(** The section need not keep the order of the OVF schema: a new Vendor comes after the
    properties. *)
Definition schema_order (v : version) : list str :=
  INFO v :: map fst (texts v (mkOptions None None None None None None None None)) ++ [OVF_NS v ++ L "Icon"; OVF_NS v ++ L "Category"; PROPERTY v].
Theorem C54_order_refuted : exists m m' s s',
  open_product V1 router = Ok m /\ edit_product V1 (mkOptions None None (Some (L "Cisco")) None None None None None) m = Ok m' /\
  echildren router = [s; text_elem (L "Other") "x"] /\ in_order (schema_order V1) (echildren s) /\
  echildren (pv_vs m') = [s'; text_elem (L "Other") "x"] /\ ~ in_order (schema_order V1) (echildren s').
Proof.
  eexists _, _, _, _. split; [vm_compute; reflexivity|]. split; [vm_compute; reflexivity|]. split; [vm_compute; reflexivity|].
  split; [|split; [vm_compute; reflexivity|]].
  - change (in_order (schema_order V1) (echildren router_section)).
    unfold router_section. cbn [echildren].
    repeat (apply in_order_cons; split; [|repeat (constructor; [intros F; apply earlier_index in F as (i & Hi & Hj); vm_compute in Hi; injection Hi as <-; specialize (Hj _ eq_refl); revert Hj; vm_compute; intros Hj; lia|]); constructor]).
    apply in_order_nil.
  - intros F. refine (F (firstn 4 (echildren router_section)) (prop (L "hostname") (L "string") [] (L "router")) [] (text_elem (VENDOR V1) "Cisco") [] eq_refl _).
    exists [INFO V1; PRODUCT V1], (skipn 3 (schema_order V1)). split; [reflexivity|]. intros G. vm_compute in G.
    repeat (destruct G as [G|G]; [discriminate G|]). destruct G.
Qed.
Print Assumptions C54_order_refuted.

(** A text cannot be made empty on its own, only together with another one. *)
Theorem C54_empty_refuted : exists m m', open_product V1 router = Ok m /\
  edit_product V1 (mkOptions None (Some []) None None None None None None) m = Err EInvalidInput /\
  edit_product V1 (mkOptions None (Some []) (Some (L "Cisco")) None None None None None) m = Ok m' /\
  product_text V1 m' (PRODUCT V1) = Ok (Some []).
Proof. eexists _, _. split; [vm_compute; reflexivity|]. split; [vm_compute; reflexivity|]. split; vm_compute; reflexivity. Qed.
Print Assumptions C54_empty_refuted.

(** A package with two product sections, as OVF allows, cannot be opened. *)
Theorem C54_two_sections_refuted : open_product V1 (system [router_section; product []]) = Err ELookupError.
Proof. vm_compute. reflexivity. Qed.
Print Assumptions C54_two_sections_refuted.
