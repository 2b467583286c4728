(** Model of the product information of an OVF and of the command edit-product:
    COT/vm_description/ovf/ovf.py:438-467, 660-744, 2845-2864 and
    COT/commands/edit_product.py:77-144.

    The document is the VirtualSystem element; [self.product_section] is its child found by
    [find_child] as in EnvPropModel.  Log messages are left out. *)
From Verif Require Import PyBase PyDict XmlModel NamesModel ProfileModel NetworkModel EnvPropModel PlatformModel.

(** name_helper.py:239-248 *)
Definition PRODUCT_CLASS (v : version) : str := OVF_NS v ++ L "class".
Definition PRODUCT (v : version) : str := OVF_NS v ++ L "Product".
Definition VENDOR (v : version) : str := OVF_NS v ++ L "Vendor".
Definition VERSION (v : version) : str := OVF_NS v ++ L "Version".
Definition FULL_VERSION (v : version) : str := OVF_NS v ++ L "FullVersion".
Definition PRODUCT_URL (v : version) : str := OVF_NS v ++ L "ProductUrl".
Definition VENDOR_URL (v : version) : str := OVF_NS v ++ L "VendorUrl".
Definition APPLICATION_URL (v : version) : str := OVF_NS v ++ L "AppUrl".

(** The VM object: the VirtualSystem, [_product_class] and [_platform] *)
Record pvm : Type := mkPvm { pv_vs : elem; pv_class : option str; pv_platform : platform }.

(** [product_class], ovf.py:438-443; the value read is kept unless it is None *)
Definition read_class (v : version) (o : option elem) : option str :=
  match o with Some sec => get_attr sec (PRODUCT_CLASS v) | None => None end.
Definition product_class (v : version) (m : pvm) : result (option str) :=
  match pv_class m with
  | Some c => Ok (Some c)
  | None => do o <- product_section v (pv_vs m); Ok (read_class v o)
  end.
(** ovf.py:187 (vm_description.py), 233-236, 256 and 456-467: at the start the section is
    looked up and [platform], and with it [product_class], is read. *)
Definition open_product (v : version) (vs : elem) : result pvm :=
  do o <- product_section v vs;
  let c := read_class v o in Ok (mkPvm vs c (for_product_string c)).

(** [self.product_section] as changed by the operation *)
Definition put_section (v : version) (vs sec : elem) : elem :=
  set_children (update_first (child_match (PRODUCT_SECTION v) (PRODUCT_SECTION_ATTRIB v)) (fun _ => sec) (echildren vs)) vs.
Definition ensure_product (v : version) (vs : elem) : result (elem * elem) :=
  ensure_section v vs (PRODUCT_SECTION v) (L "Product Information") (PRODUCT_SECTION_ATTRIB v).

Definition opt_str_eqb (a b : option str) : bool :=
  match a, b with Some x, Some y => str_eqb x y | None, None => true | _, _ => false end.
(** The setter, ovf.py:445-464 *)
Definition set_product_class (v : version) (m : pvm) (c : str) : result pvm :=
  do old <- product_class v m;
  if opt_str_eqb (Some c) old then Ok m
  else
    do r <- ensure_product v (pv_vs m);
    let '(vs1, sec) := (r : elem * elem) in
    Ok (mkPvm (put_section v vs1 (set_attr (PRODUCT_CLASS v) c sec)) (Some c) (for_product_string (Some c))).

(** [findtext(tag, None)]: an element without text counts as "" *)
Definition findtext_opt (tag : str) (e : elem) : option str :=
  match findall tag e with
  | [] => None
  | c :: _ => Some (match etext c with Some t => t | None => [] end)
  end.
(** The getters [product], [vendor], [version_short], [version_long], [product_url],
    [vendor_url], [application_url], ovf.py:660-744 *)
Definition product_text (v : version) (m : pvm) (tag : str) : result (option str) :=
  do o <- product_section v (pv_vs m);
  Ok (match o with Some sec => findtext_opt tag sec | None => None end).
(** ovf.py:2845-2864 _set_product_section_child, which all the setters are *)
Definition set_product_text (v : version) (m : pvm) (tag text : str) : result pvm :=
  do r <- ensure_product v (pv_vs m);
  let '(vs1, sec) := (r : elem * elem) in
  do c <- set_or_make_child sec tag (Some text) [] [];
  Ok (mkPvm (put_section v vs1 (fst c)) (pv_class m) (pv_platform m)).

(** The options of the command: class, product, vendor, version, full version, the three
    URLs (edit_product.py:60-75) *)
Record options : Type := mkOptions {
  o_class : option str; o_product : option str; o_vendor : option str; o_version : option str;
  o_full : option str; o_product_url : option str; o_vendor_url : option str; o_app_url : option str }.
(** edit_product.py:77-98 ready_to_run: [any] of the texts, of which "" does not count.
    The check of the superclass is not modelled. *)
Definition some_text (o : option str) : bool := match o with Some (_ :: _) => true | _ => false end.
Definition product_ready (o : options) : bool :=
  some_text (o_class o) || some_text (o_product o) || some_text (o_vendor o) || some_text (o_version o) ||
  some_text (o_full o) || some_text (o_product_url o) || some_text (o_vendor_url o) || some_text (o_app_url o).

Definition when (v : version) (x : option str) (f : version -> pvm -> str -> result pvm) (m : pvm) : result pvm :=
  match x with None => Ok m | Some t => f v m t end.
(** edit_product.py:100-144 run *)
Definition edit_product (v : version) (o : options) (m : pvm) : result pvm :=
  if negb (product_ready o) then Err EInvalidInput
  else
    do m1 <- when v (o_class o) set_product_class m;
    do m2 <- when v (o_product o) (fun v m => set_product_text v m (PRODUCT v)) m1;
    do m3 <- when v (o_vendor o) (fun v m => set_product_text v m (VENDOR v)) m2;
    do m4 <- when v (o_version o) (fun v m => set_product_text v m (VERSION v)) m3;
    do m5 <- when v (o_full o) (fun v m => set_product_text v m (FULL_VERSION v)) m4;
    do m6 <- when v (o_product_url o) (fun v m => set_product_text v m (PRODUCT_URL v)) m5;
    do m7 <- when v (o_vendor_url o) (fun v m => set_product_text v m (VENDOR_URL v)) m6;
    when v (o_app_url o) (fun v m => set_product_text v m (APPLICATION_URL v)) m7.
