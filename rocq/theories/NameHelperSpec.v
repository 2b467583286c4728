(** The names of the elements and attributes of an OVF descriptor, by version of the standard. *)
From Coq Require Import String.
From Verif Require Import PyBase NamesModel.
Local Open Scope list_scope.

Definition ovf_uri (v : version) : str :=
  match v with
  | V0 => L "http://www.vmware.com/schema/ovf/1/envelope"
  | V1 => L "http://schemas.dmtf.org/ovf/envelope/1"
  | V2 => L "http://schemas.dmtf.org/ovf/envelope/2"
  end.
Definition rasd_uri : str := L "http://schemas.dmtf.org/wbem/wscim/1/cim-schema/2/CIM_ResourceAllocationSettingData".
Definition vssd_uri : str := L "http://schemas.dmtf.org/wbem/wscim/1/cim-schema/2/CIM_VirtualSystemSettingData".
Definition xsi_uri : str := L "http://www.w3.org/2001/XMLSchema-instance".
Definition cim_uri : str := L "http://schemas.dmtf.org/wbem/wscim/1/common".
Definition sasd_uri : str := L "http://schemas.dmtf.org/wbem/wscim/1/cim-schema/2/CIM_StorageAllocationSettingData.xsd".
Definition epasd_uri : str := L "http://schemas.dmtf.org/wbem/wscim/1/cim-schema/2/CIM_EthernetPortAllocationSettingData.xsd".

(** A name in a namespace *)
Definition in_ns (uri local : str) : str := L "{" ++ uri ++ L "}" ++ local.

(** Names of the OVF namespace that are the same in all versions *)
Definition same_names : list (string * string) :=
  [
   ("ENVELOPE", "Envelope"); ("INFO", "Info"); ("NETWORK", "Network"); ("NETWORK_NAME", "name");
   ("NWK_DESC", "Description"); ("DEPLOY_OPT_SECTION", "DeploymentOptionSection");
   ("CONFIG", "Configuration"); ("CONFIG_ID", "id"); ("CONFIG_DEFAULT", "default");
   ("CFG_LABEL", "Label"); ("CFG_DESC", "Description"); ("REFERENCES", "References");
   ("FILE", "File"); ("FILE_ID", "id"); ("FILE_HREF", "href"); ("FILE_SIZE", "size");
   ("DISK", "Disk"); ("DISK_ID", "diskId"); ("DISK_FILE_REF", "fileRef");
   ("DISK_CAPACITY", "capacity"); ("DISK_CAP_UNITS", "capacityAllocationUnits");
   ("DISK_FORMAT", "format"); ("ANNOTATION", "Annotation"); ("PRODUCT_CLASS", "class");
   ("PRODUCT", "Product"); ("VENDOR", "Vendor"); ("VERSION", "Version");
   ("FULL_VERSION", "FullVersion"); ("PRODUCT_URL", "ProductUrl"); ("VENDOR_URL", "VendorUrl");
   ("APPLICATION_URL", "AppUrl"); ("PROPERTY", "Property"); ("PROP_KEY", "key");
   ("PROP_QUAL", "qualifiers"); ("PROP_TYPE", "type"); ("PROPERTY_LABEL", "Label");
   ("PROPERTY_DESC", "Description"); ("ENVIRONMENT_TRANSPORT", "transport");
   ("EULA_LICENSE", "License"); ("ITEM", "Item"); ("ITEM_CONFIG", "configuration");
   ("SYSTEM", "System")]%string.
(** and those that are not: in version 0.9, 1.x and 2.x *)
Definition other_names : list (string * (string * string * string)) :=
  [
   ("NETWORK_SECTION", ("Section", "NetworkSection", "NetworkSection"));
   ("DISK_SECTION", ("Section", "DiskSection", "DiskSection"));
   ("ANNOTATION_SECTION", ("Section", "AnnotationSection", "AnnotationSection"));
   ("VIRTUAL_SYSTEM", ("Content", "VirtualSystem", "VirtualSystem"));
   ("PRODUCT_SECTION", ("Section", "ProductSection", "ProductSection"));
   ("PROP_VALUE", ("defaultValue", "value", "value"));
   ("PROP_USER_CONFIGABLE", ("configurableByUser", "userConfigurable", "userConfigurable"));
   ("EULA_SECTION", ("Section", "EulaSection", "EulaSection"));
   ("VIRTUAL_HW_SECTION", ("Section", "VirtualHardwareSection", "VirtualHardwareSection"));
   ("STORAGE_ITEM", ("Item", "Item", "StorageItem"));
   ("ETHERNET_PORT_ITEM", ("Item", "Item", "EthernetPortItem"))]%string.
(** Children of hardware items and the prefixes of references, which have no namespace here:
    the same in all versions *)
Definition same_children : list (string * string) :=
  [
   ("ADDRESS", "Address"); ("ADDRESS_ON_PARENT", "AddressOnParent");
   ("ALLOCATION_UNITS", "AllocationUnits"); ("AUTOMATIC_ALLOCATION", "AutomaticAllocation");
   ("AUTOMATIC_DEALLOCATION", "AutomaticDeallocation"); ("CAPTION", "Caption");
   ("CONNECTION", "Connection"); ("CONSUMER_VISIBILITY", "ConsumerVisibility");
   ("ITEM_DESCRIPTION", "Description"); ("HOST_RESOURCE", "HostResource");
   ("OLD_HOST_RSRC_FILE_REF", "/file/"); ("OLD_HOST_RSRC_DISK_REF", "/disk/"); ("LIMIT", "Limit");
   ("MAPPING_BEHAVIOR", "MappingBehavior"); ("OTHER_RESOURCE_TYPE", "OtherResourceType");
   ("PARENT", "Parent"); ("POOL_ID", "PoolID"); ("RESERVATION", "Reservation");
   ("RESOURCE_SUB_TYPE", "ResourceSubType"); ("RESOURCE_TYPE", "ResourceType");
   ("VIRTUAL_QUANTITY", "VirtualQuantity"); ("WEIGHT", "Weight")]%string.
(** and those that are not: in version 0.9 and from 1.0 *)
Definition other_children : list (string * (string * string)) :=
  [
   ("ELEMENT_NAME", ("Caption", "ElementName")); ("HOST_RSRC_FILE_REF", ("/file/", "ovf:/file/"));
   ("HOST_RSRC_DISK_REF", ("/disk/", "ovf:/disk/")); ("INSTANCE_ID", ("InstanceId", "InstanceID"))]%string.

(** [names v n s]: what the name [n] stands for in version [v]. *)
Inductive names (v : version) : str -> str -> Prop :=
| n_same n s : In (n, s) same_names -> names v (L n) (in_ns (ovf_uri v) (L s))
| n_other n s0 s1 s2 : In (n, (s0, s1, s2)) other_names ->
    names v (L n) (in_ns (ovf_uri v) (L match v with V0 => s0 | V1 => s1 | V2 => s2 end))
| n_system_type : names v (L "VIRTUAL_SYSTEM_TYPE") (in_ns vssd_uri (L "VirtualSystemType"))
| n_child n s : In (n, s) same_children -> names v (L n) (L s)
| n_other_child n s0 s1 : In (n, (s0, s1)) other_children ->
    names v (L n) (L match v with V0 => s0 | _ => s1 end)
| n_bus : v = V0 -> names v (L "BUS_NUMBER") (L "BusNumber")
| n_space n p uri : lower n = L p ->
    In (p, uri) [("xsi", xsi_uri); ("cim", cim_uri); ("rasd", rasd_uri); ("vssd", vssd_uri); ("ovf", ovf_uri v)]%string ->
    names v n (in_ns uri [])
| n_space2 n p uri : v = V2 -> lower n = L p ->
    In (p, uri) [("sasd", sasd_uri); ("epasd", epasd_uri)]%string -> names v n (in_ns uri [])
| n_rasd n : v <> V2 -> n = L "SASD" \/ n = L "EPASD" -> names v n (in_ns rasd_uri []).

(** The attribute that tells the sections of version 0.9 apart *)
Definition section_type (v : version) (s : string) : list (str * str) :=
  match v with V0 => [(in_ns xsi_uri (L "type"), L "ovf:" ++ L s ++ L "_Type")] | _ => [] end.

(** Numbers of the device types in the CIM schema *)
Definition cim_numbers : list (string * string) :=
  [("cpu", "3"); ("memory", "4"); ("ide", "5"); ("scsi", "6"); ("fc", "7"); ("iscsi", "8"); ("ib", "9"); ("ethernet", "10");
   ("floppy", "14"); ("cdrom", "15"); ("dvd", "16"); ("harddisk", "17"); ("sata", "20"); ("serial", "21"); ("parallel", "22"); ("usb", "23")]%string.
