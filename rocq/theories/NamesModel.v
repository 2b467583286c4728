(** XML names for the three OVF versions: COT/vm_description/ovf/name_helper.py.

    Only the names used by the modelled code are listed.  How they are looked up, with the
    class-level caches (name_helper.py:176-177, 316-339), is modelled in NameHelperModel;
    C76_model_names says that a lookup yields these strings whatever was looked up before. *)
From Verif Require Import PyBase PyDict.

(** name_helper.py:86-100 name_helper: 0.x, 1.x or 2.x *)
Inductive version : Type := V0 | V1 | V2.

(** name_helper.py:117 CIM_URI *)
Definition CIM_URI : str := L "http://schemas.dmtf.org/wbem/wscim/1".

(** name_helper.py:131-140, 446-449, 534-542: entries of NSM in braces
    (name_helper.py:329-330).  SASD and EPASD are RASD before version 2
    (name_helper.py:331-332). *)
Definition braced (s : str) : str := ("{"%char :: s) ++ ["}"%char].
Definition OVF_NS (v : version) : str :=
  braced (match v with
          | V0 => L "http://www.vmware.com/schema/ovf/1/envelope"
          | V1 => L "http://schemas.dmtf.org/ovf/envelope/1"
          | V2 => L "http://schemas.dmtf.org/ovf/envelope/2"
          end).
Definition RASD (v : version) : str :=
  braced (CIM_URI ++ L "/cim-schema/2/CIM_ResourceAllocationSettingData").
Definition VSSD (v : version) : str :=
  braced (CIM_URI ++ L "/cim-schema/2/CIM_VirtualSystemSettingData").
Definition SASD (v : version) : str :=
  match v with
  | V2 => braced (CIM_URI ++ L "/cim-schema/2/CIM_StorageAllocationSettingData.xsd")
  | _ => RASD v
  end.
Definition EPASD (v : version) : str :=
  match v with
  | V2 => braced (CIM_URI ++ L "/cim-schema/2/CIM_EthernetPortAllocationSettingData.xsd")
  | _ => RASD v
  end.

(** name_helper.py:151-168 RES_MAP, in this order *)
Definition RES_MAP : list (str * str) :=
  [(L "cpu", L "3"); (L "memory", L "4"); (L "ide", L "5"); (L "scsi", L "6");
   (L "fc", L "7"); (L "iscsi", L "8"); (L "ib", L "9"); (L "ethernet", L "10");
   (L "floppy", L "14"); (L "cdrom", L "15"); (L "dvd", L "16");
   (L "harddisk", L "17"); (L "sata", L "20"); (L "serial", L "21");
   (L "parallel", L "22"); (L "usb", L "23")].

(** name_helper.py:270-281, 548-549 *)
Definition ITEM (v : version) : str := OVF_NS v ++ L "Item".
Definition STORAGE_ITEM (v : version) : str :=
  OVF_NS v ++ match v with V2 => L "StorageItem" | _ => L "Item" end.
Definition ETHERNET_PORT_ITEM (v : version) : str :=
  OVF_NS v ++ match v with V2 => L "EthernetPortItem" | _ => L "Item" end.
Definition ITEM_CONFIG (v : version) : str := OVF_NS v ++ L "configuration".
Definition INFO (v : version) : str := OVF_NS v ++ L "Info".
Definition SYSTEM (v : version) : str := OVF_NS v ++ L "System".

(** name_helper.py:287-314, 465-473 *)
Definition ADDRESS : str := L "Address".
Definition ADDRESS_ON_PARENT : str := L "AddressOnParent".
Definition ALLOCATION_UNITS : str := L "AllocationUnits".
Definition CAPTION : str := L "Caption".
Definition CONNECTION : str := L "Connection".
Definition ITEM_DESCRIPTION : str := L "Description".
Definition ELEMENT_NAME (v : version) : str :=
  match v with V0 => L "Caption" | _ => L "ElementName" end.
Definition HOST_RESOURCE : str := L "HostResource".
Definition INSTANCE_ID (v : version) : str :=
  match v with V0 => L "InstanceId" | _ => L "InstanceID" end.
Definition PARENT : str := L "Parent".
Definition RESOURCE_SUB_TYPE : str := L "ResourceSubType".
Definition RESOURCE_TYPE : str := L "ResourceType".
Definition VIRTUAL_QUANTITY : str := L "VirtualQuantity".

(** name_helper.py:350-373, 478-501 ITEM_CHILDREN *)
Definition ITEM_CHILDREN (v : version) : list str :=
  match v with
  | V0 => map L ["Caption"; "Description"; "InstanceId"; "ResourceType";
                 "OtherResourceType"; "ResourceSubType"; "PoolID";
                 "ConsumerVisibility"; "HostResource"; "AllocationUnits";
                 "VirtualQuantity"; "Reservation"; "Limit"; "Weight";
                 "AutomaticAllocation"; "AutomaticDeallocation"; "Parent";
                 "Connection"; "Address"; "MappingBehavior"; "AddressOnParent";
                 "BusNumber"]%string
  | _ => map L ["Address"; "AddressOnParent"; "AllocationUnits";
                "AutomaticAllocation"; "AutomaticDeallocation"; "Caption";
                "Connection"; "ConsumerVisibility"; "Description"; "ElementName";
                "HostResource"; "InstanceID"; "Limit"; "MappingBehavior";
                "OtherResourceType"; "Parent"; "PoolID"; "Reservation";
                "ResourceSubType"; "ResourceType"; "VirtualQuantity";
                "Weight"]%string
  end.

(** name_helper.py:385-399 *)
Definition namespace_for_item_tag (v : version) (tag : str) : option str :=
  if str_eqb tag (ITEM v) then Some (RASD v)
  else if str_eqb tag (STORAGE_ITEM v) then Some (SASD v)
  else if str_eqb tag (ETHERNET_PORT_ITEM v) then Some (EPASD v)
  else None.

(** name_helper.py:401-415 *)
Definition namespace_for_resource_type (v : version) (rt : str) : str :=
  if str_eqb rt (L "10") then EPASD v
  else if str_eqb rt (L "17") || str_eqb rt (L "15") then SASD v
  else RASD v.

(** name_helper.py:417-436 *)
Definition item_tag_for_namespace (v : version) (ns : str) : result str :=
  if str_eqb ns (RASD v) then Ok (ITEM v)
  else if str_eqb ns (SASD v) then Ok (STORAGE_ITEM v)
  else if str_eqb ns (EPASD v) then Ok (ETHERNET_PORT_ITEM v)
  else Err EValueUnsupported.

(** item.py:150-157 OVFItem.hardware_type, the search through RES_MAP; [None] is
    the "unknown" case. *)
Fixpoint res_name (value : str) (m : list (str * str)) : option str :=
  match m with
  | [] => None
  | (k, v) :: m' => if str_eqb value v then Some k else res_name value m'
  end.
