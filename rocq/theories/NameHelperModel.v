(** Model of COT/vm_description/ovf/name_helper.py: how the names of XML elements and
    attributes are looked up, with the caches that all objects of a class share.

    Only lookups that reach __getattr__ are modelled: attributes that Python finds by
    itself (NSM, RES_MAP, the methods, ITEM_CHILDREN and the dictionaries of section
    attributes) never get there.  A Python dict is an association list. *)
From Coq Require Import QArith String.
From Verif Require Import PyBase PyDict NamesModel.
Local Open Scope list_scope.

(** name_helper.py:86-100 name_helper; the number is any rational *)
Definition name_helper (version : Q) : NamesModel.version :=
  if negb (Qle_bool 1 version) then V0 else if negb (Qle_bool 2 version) then V1 else V2.

(** name_helper.py:103-114 _Tag *)
Record tag : Type := mkTag { namespace_name : str; the_tag : str }.
Definition _Tag (ns t : string) : tag := mkTag (upper (L ns)) (L t).

(** Keys of a table as text, and [dict(base, key=value, ...)] *)
Definition keys {A} (l : list (string * A)) : list (str * A) := map (fun p => (L (fst p), snd p)) l.
Definition updated {A} (base more : list (str * A)) : list (str * A) :=
  fold_left (fun d p => dset str_eqb (fst p) (snd p) d) more base.

(** name_helper.py:131-140 NSM *)
Definition NSM1 : list (str * str) :=
  [(L "xsi", L "http://www.w3.org/2001/XMLSchema-instance");
   (L "cim", CIM_URI ++ L "/common");
   (L "rasd", CIM_URI ++ L "/cim-schema/2/CIM_ResourceAllocationSettingData");
   (L "vssd", CIM_URI ++ L "/cim-schema/2/CIM_VirtualSystemSettingData");
   (L "ovf", L "http://schemas.dmtf.org/ovf/envelope/1")].
(** name_helper.py:446-449, 534-542 *)
Definition NSM (v : version) : list (str * str) :=
  match v with
  | V0 => updated NSM1 [(L "ovf", L "http://www.vmware.com/schema/ovf/1/envelope")]
  | V1 => NSM1
  | V2 => updated NSM1 
      [(L "ovf", L "http://schemas.dmtf.org/ovf/envelope/2");
       (L "epasd", CIM_URI ++ L "/cim-schema/2/CIM_EthernetPortAllocationSettingData.xsd");
       (L "sasd", CIM_URI ++ L "/cim-schema/2/CIM_StorageAllocationSettingData.xsd")]
  end.

(** name_helper.py:181-281 _raw *)
Definition raw1 : list (str * tag) := keys (
  [
   ("ENVELOPE", _Tag "ovf" "Envelope"); ("INFO", _Tag "ovf" "Info");
   ("NETWORK_SECTION", _Tag "ovf" "NetworkSection"); ("NETWORK", _Tag "ovf" "Network");
   ("NETWORK_NAME", _Tag "ovf" "name"); ("NWK_DESC", _Tag "ovf" "Description");
   ("DEPLOY_OPT_SECTION", _Tag "ovf" "DeploymentOptionSection");
   ("CONFIG", _Tag "ovf" "Configuration"); ("CONFIG_ID", _Tag "ovf" "id");
   ("CONFIG_DEFAULT", _Tag "ovf" "default"); ("CFG_LABEL", _Tag "ovf" "Label");
   ("CFG_DESC", _Tag "ovf" "Description"); ("REFERENCES", _Tag "ovf" "References");
   ("FILE", _Tag "ovf" "File"); ("FILE_ID", _Tag "ovf" "id"); ("FILE_HREF", _Tag "ovf" "href");
   ("FILE_SIZE", _Tag "ovf" "size"); ("DISK_SECTION", _Tag "ovf" "DiskSection");
   ("DISK", _Tag "ovf" "Disk"); ("DISK_ID", _Tag "ovf" "diskId");
   ("DISK_FILE_REF", _Tag "ovf" "fileRef"); ("DISK_CAPACITY", _Tag "ovf" "capacity");
   ("DISK_CAP_UNITS", _Tag "ovf" "capacityAllocationUnits"); ("DISK_FORMAT", _Tag "ovf" "format");
   ("ANNOTATION_SECTION", _Tag "ovf" "AnnotationSection"); ("ANNOTATION", _Tag "ovf" "Annotation");
   ("VIRTUAL_SYSTEM", _Tag "ovf" "VirtualSystem");
   ("PRODUCT_SECTION", _Tag "ovf" "ProductSection"); ("PRODUCT_CLASS", _Tag "ovf" "class");
   ("PRODUCT", _Tag "ovf" "Product"); ("VENDOR", _Tag "ovf" "Vendor");
   ("VERSION", _Tag "ovf" "Version"); ("FULL_VERSION", _Tag "ovf" "FullVersion");
   ("PRODUCT_URL", _Tag "ovf" "ProductUrl"); ("VENDOR_URL", _Tag "ovf" "VendorUrl");
   ("APPLICATION_URL", _Tag "ovf" "AppUrl"); ("PROPERTY", _Tag "ovf" "Property");
   ("PROP_KEY", _Tag "ovf" "key"); ("PROP_VALUE", _Tag "ovf" "value");
   ("PROP_QUAL", _Tag "ovf" "qualifiers"); ("PROP_TYPE", _Tag "ovf" "type");
   ("PROP_USER_CONFIGABLE", _Tag "ovf" "userConfigurable"); ("PROPERTY_LABEL", _Tag "ovf" "Label");
   ("PROPERTY_DESC", _Tag "ovf" "Description"); ("ENVIRONMENT_TRANSPORT", _Tag "ovf" "transport");
   ("EULA_SECTION", _Tag "ovf" "EulaSection"); ("EULA_LICENSE", _Tag "ovf" "License");
   ("VIRTUAL_HW_SECTION", _Tag "ovf" "VirtualHardwareSection"); ("ITEM", _Tag "ovf" "Item");
   ("STORAGE_ITEM", _Tag "ovf" "Item"); ("ETHERNET_PORT_ITEM", _Tag "ovf" "Item");
   ("ITEM_CONFIG", _Tag "ovf" "configuration"); ("SYSTEM", _Tag "ovf" "System");
   ("VIRTUAL_SYSTEM_TYPE", _Tag "vssd" "VirtualSystemType")]%string).
(** name_helper.py:453-464, 546-550 *)
Definition raw (v : version) : list (str * tag) :=
  match v with
  | V0 => updated raw1 (keys (
  [
   ("NETWORK_SECTION", _Tag "ovf" "Section"); ("DISK_SECTION", _Tag "ovf" "Section");
   ("ANNOTATION_SECTION", _Tag "ovf" "Section"); ("VIRTUAL_SYSTEM", _Tag "ovf" "Content");
   ("PRODUCT_SECTION", _Tag "ovf" "Section"); ("PROP_VALUE", _Tag "ovf" "defaultValue");
   ("PROP_USER_CONFIGABLE", _Tag "ovf" "configurableByUser");
   ("EULA_SECTION", _Tag "ovf" "Section"); ("VIRTUAL_HW_SECTION", _Tag "ovf" "Section")]%string))
  | V1 => raw1
  | V2 => updated raw1 (keys (
  [
   ("STORAGE_ITEM", _Tag "ovf" "StorageItem"); ("ETHERNET_PORT_ITEM", _Tag "ovf" "EthernetPortItem")]%string))
  end.

(** name_helper.py:286-314 _item_children *)
Definition item_children1 : list (str * str) := map (fun p => (L (fst p), L (snd p)))
  [
   ("ADDRESS", "Address"); ("ADDRESS_ON_PARENT", "AddressOnParent");
   ("ALLOCATION_UNITS", "AllocationUnits"); ("AUTOMATIC_ALLOCATION", "AutomaticAllocation");
   ("AUTOMATIC_DEALLOCATION", "AutomaticDeallocation"); ("CAPTION", "Caption");
   ("CONNECTION", "Connection"); ("CONSUMER_VISIBILITY", "ConsumerVisibility");
   ("ITEM_DESCRIPTION", "Description"); ("ELEMENT_NAME", "ElementName");
   ("HOST_RESOURCE", "HostResource"); ("OLD_HOST_RSRC_FILE_REF", "/file/");
   ("OLD_HOST_RSRC_DISK_REF", "/disk/"); ("HOST_RSRC_FILE_REF", "ovf:/file/");
   ("HOST_RSRC_DISK_REF", "ovf:/disk/"); ("INSTANCE_ID", "InstanceID"); ("LIMIT", "Limit");
   ("MAPPING_BEHAVIOR", "MappingBehavior"); ("OTHER_RESOURCE_TYPE", "OtherResourceType");
   ("PARENT", "Parent"); ("POOL_ID", "PoolID"); ("RESERVATION", "Reservation");
   ("RESOURCE_SUB_TYPE", "ResourceSubType"); ("RESOURCE_TYPE", "ResourceType");
   ("VIRTUAL_QUANTITY", "VirtualQuantity"); ("WEIGHT", "Weight")]%string.
(** name_helper.py:465-473 *)
Definition item_children (v : version) : list (str * str) :=
  match v with
  | V0 => updated item_children1 (map (fun p => (L (fst p), L (snd p)))
  [
   ("BUS_NUMBER", "BusNumber"); ("ELEMENT_NAME", "Caption"); ("HOST_RSRC_FILE_REF", "/file/");
   ("HOST_RSRC_DISK_REF", "/disk/"); ("INSTANCE_ID", "InstanceId")]%string)
  | _ => item_children1
  end.

(** The cache of one class: name_helper.py:177, 452, 545 *)
Definition cache : Type := list (str * str).

(** name_helper.py:316-339 __getattr__.  Python's recursion is that of [getattr] and
    [self.RASD]; the fuel bounds it and two steps are enough, as no namespace is itself an
    entry of _raw. *)
Fixpoint getattr (fuel : nat) (v : version) (c : cache) (name : str) : result str * cache :=
  match fuel with
  | O => (Err EOutOfFuel, c)
  | S fuel' =>
      match dget str_eqb name (item_children v) with
      | Some s => (Ok s, c)
      | None =>
          match dget str_eqb name c with
          | Some s => (Ok s, c)
          | None =>
              let found :=
                match dget str_eqb (lower name) (NSM v) with
                | Some uri => (Ok (braced uri), c)
                | None =>
                    if str_eqb name (L "EPASD") || str_eqb name (L "SASD")
                    then getattr fuel' v c (L "RASD")
                    else match dget str_eqb name (raw v) with
                         | None => (Err EAttributeError, c)
                         | Some t =>
                             match getattr fuel' v c (namespace_name t) with
                             | (Ok ns, c') => (Ok (ns ++ the_tag t), c')
                             | e => e
                             end
                         end
                end in
              match found with
              | (Ok s, c') => (Ok s, dset str_eqb name s c')
              | e => e
              end
          end
      end
  end.

(** The three class-level caches *)
Record caches : Type := mkCaches { cache0 : cache; cache1 : cache; cache2 : cache }.
(** name_helper.py:177, 452, 545: when the module has been loaded all are empty *)
Definition no_caches : caches := mkCaches [] [] [].
Definition cache_of (v : version) (s : caches) : cache :=
  match v with V0 => cache0 s | V1 => cache1 s | V2 => cache2 s end.
Definition put_cache (v : version) (c : cache) (s : caches) : caches :=
  match v with
  | V0 => mkCaches c (cache1 s) (cache2 s)
  | V1 => mkCaches (cache0 s) c (cache2 s)
  | V2 => mkCaches (cache0 s) (cache1 s) c
  end.

(** A lookup on a helper of one version *)
Definition lookup (fuel : nat) (v : version) (s : caches) (name : str) : result str * caches :=
  let '(r, c) := getattr fuel v (cache_of v s) name in (r, put_cache v c s).
(** ovf.py:744-761 OVF.__getattr__ and item.py:125-143 OVFItem.__getattr__, which goes to
    the OVF object *)
Definition vm_getattr (fuel : nat) (v : version) (s : caches) (name : str) : result str * caches :=
  if starts_with (L "__") name then (Err EAttributeError, s) else lookup fuel v s name.

(** One lookup after another, on objects of any version *)
Fixpoint lookups (fuel : nat) (s : caches) (l : list (version * str)) : list (result str) * caches :=
  match l with
  | [] => ([], s)
  | (v, name) :: l' =>
      let '(r, s1) := vm_getattr fuel v s name in
      let '(rs, s2) := lookups fuel s1 l' in (r :: rs, s2)
  end.

(** name_helper.py:350-373, 478-501 ITEM_CHILDREN, looked up in this order when a helper is
    made *)
Definition child_names (v : version) : list string :=
  match v with
  | V0 =>
   [
   "CAPTION"; "ITEM_DESCRIPTION"; "INSTANCE_ID"; "RESOURCE_TYPE"; "OTHER_RESOURCE_TYPE";
   "RESOURCE_SUB_TYPE"; "POOL_ID"; "CONSUMER_VISIBILITY"; "HOST_RESOURCE"; "ALLOCATION_UNITS";
   "VIRTUAL_QUANTITY"; "RESERVATION"; "LIMIT"; "WEIGHT"; "AUTOMATIC_ALLOCATION";
   "AUTOMATIC_DEALLOCATION"; "PARENT"; "CONNECTION"; "ADDRESS"; "MAPPING_BEHAVIOR";
   "ADDRESS_ON_PARENT"; "BUS_NUMBER"]%string
  | _ =>
   [
   "ADDRESS"; "ADDRESS_ON_PARENT"; "ALLOCATION_UNITS"; "AUTOMATIC_ALLOCATION";
   "AUTOMATIC_DEALLOCATION"; "CAPTION"; "CONNECTION"; "CONSUMER_VISIBILITY"; "ITEM_DESCRIPTION";
   "ELEMENT_NAME"; "HOST_RESOURCE"; "INSTANCE_ID"; "LIMIT"; "MAPPING_BEHAVIOR";
   "OTHER_RESOURCE_TYPE"; "PARENT"; "POOL_ID"; "RESERVATION"; "RESOURCE_SUB_TYPE"; "RESOURCE_TYPE";
   "VIRTUAL_QUANTITY"; "WEIGHT"]%string
  end.
Definition ordered_children (fuel : nat) (v : version) (s : caches) : list (result str) * caches :=
  lookups fuel s (map (fun n => (v, L n)) (child_names v)).
