(** Model of COT/platforms/*.py. *)
From Verif Require Import PyBase ValidationModel.

(** Platform, COT/platforms/platform.py:36, and its subclasses *)
Inductive platform : Type :=
| Generic        (* platform.py:36 *)
| C9800CL        (* cisco_c9800cl.py:23 *)
| CSR1000V       (* cisco_csr1000v.py:23 *)
| IOSv           (* cisco_iosv.py:23 *)
| IOSXRv         (* cisco_iosxrv.py:33 *)
| IOSXRvRP       (* cisco_iosxrv.py:69 *)
| IOSXRvLC       (* cisco_iosxrv.py:94 *)
| IOSXRv9000     (* cisco_iosxrv_9000.py:24 *)
| Nexus9000v     (* cisco_nexus_9000v.py:23 *)
| NXOSv.         (* cisco_nxosv.py:23 *)

(** Hardware, platform.py:26-33 *)
Inductive hardware : Type := HCpus | HMemory | HNics | HSerials.
Definition hardware_eqb (a b : hardware) : bool :=
  match a, b with
  | HCpus, HCpus | HMemory, HMemory | HNics, HNics | HSerials, HSerials => true
  | _, _ => false
  end.

(** PRODUCT_PLATFORM_MAP: the last lines of each platform module *)
Definition product_platform_map : list (str * platform) :=
  [ (L "com.cisco.vwlc", C9800CL);             (* cisco_c9800cl.py:85 *)
    (L "com.cisco.csr1000v", CSR1000V);        (* cisco_csr1000v.py:91 *)
    (L "com.cisco.iosv", IOSv);                (* cisco_iosv.py:73 *)
    (L "com.cisco.ios-xrv", IOSXRv);           (* cisco_iosxrv.py:127 *)
    (L "com.cisco.ios-xrv.rp", IOSXRvRP);      (* cisco_iosxrv.py:128 *)
    (L "com.cisco.ios-xrv.lc", IOSXRvLC);      (* cisco_iosxrv.py:129 *)
    (L "com.cisco.ios-xrv9000", IOSXRv9000);   (* cisco_iosxrv_9000.py:61 *)
    (L "com.cisco.ios-xrv64", IOSXRv9000);     (* cisco_iosxrv_9000.py:63 *)
    (L "com.cisco.n9k", Nexus9000v);           (* cisco_nexus_9000v.py:60 *)
    (L "com.cisco.nx-osv", NXOSv) ].           (* cisco_nxosv.py:62 *)

(** for_product_string, platform.py:92-122 *)
Fixpoint lookup_platform (s : str) (m : list (str * platform)) : platform :=
  match m with
  | [] => Generic
  | (k, p) :: m' => if str_eqb s k then p else lookup_platform s m'
  end.
Definition for_product_string (product : option str) : platform :=
  match product with
  | None => Generic
  | Some s => lookup_platform s product_platform_map
  end.

(** HARDWARE_LIMITS of every class (inherited entries written out):
    platform.py:84-89, cisco_c9800cl.py:33-39, cisco_csr1000v.py:33-39,
    cisco_iosv.py:34-40, cisco_iosxrv.py:43-49,74-77,103-106,
    cisco_iosxrv_9000.py:30-35, cisco_nexus_9000v.py:32-38, cisco_nxosv.py:32-37 *)
Definition hardware_limits (p : platform) (h : hardware) : option Z * option Z :=
  (match p, h with
  | Generic, HCpus => (Some 1, None)
  | Generic, HMemory => (Some 1, None)
  | Generic, HNics => (Some 0, None)
  | Generic, HSerials => (Some 0, None)
  | C9800CL, HCpus => (Some 4, Some 10)
  | C9800CL, HMemory => (Some 8192, Some 32768)
  | C9800CL, HNics => (Some 1, Some 3)
  | C9800CL, HSerials => (Some 0, Some 2)
  | CSR1000V, HCpus => (Some 1, Some 8)
  | CSR1000V, HMemory => (Some 2560, Some 8192)
  | CSR1000V, HNics => (Some 3, Some 26)
  | CSR1000V, HSerials => (Some 0, Some 2)
  | IOSv, HCpus => (Some 1, Some 1)
  | IOSv, HMemory => (Some 192, Some 3072)
  | IOSv, HNics => (Some 0, Some 16)
  | IOSv, HSerials => (Some 1, Some 2)
  | (IOSXRv | IOSXRvRP | IOSXRvLC), HCpus => (Some 1, Some 8)
  | (IOSXRv | IOSXRvRP | IOSXRvLC), HMemory => (Some 3072, Some 8192)
  | (IOSXRv | IOSXRvLC), HNics => (Some 1, None)
  | IOSXRvRP, HNics => (Some 1, Some 2)
  | (IOSXRv | IOSXRvRP), HSerials => (Some 1, Some 4)
  | IOSXRvLC, HSerials => (Some 0, Some 4)
  | IOSXRv9000, HCpus => (Some 1, Some 32)
  | IOSXRv9000, HMemory => (Some 8192, None)
  | IOSXRv9000, HNics => (Some 4, None)
  | IOSXRv9000, HSerials => (Some 1, Some 4)
  | Nexus9000v, HCpus => (Some 1, Some 4)
  | Nexus9000v, HMemory => (Some 8192, None)
  | Nexus9000v, HNics => (Some 1, Some 65)
  | Nexus9000v, HSerials => (Some 1, Some 1)
  | NXOSv, HCpus => (Some 1, Some 8)
  | NXOSv, HMemory => (Some 2048, Some 8192)
  | NXOSv, HNics => (Some 0, None)
  | NXOSv, HSerials => (Some 1, Some 2)
  end)%Z.

(** _already_validated, platform.py:126 *)
Definition cache := list (hardware * Z).
Definition cached (h : hardware) (v : Z) (c : cache) : bool :=
  existsb (fun e => hardware_eqb h (fst e) && Z.eqb v (snd e)) c.

(** Platform.validate_cpu_count / _memory_amount / _nic_count / _serial_count,
    platform.py:169-268: the value is remembered before it is checked. *)
Definition base_validate (p : platform) (h : hardware) (v : Z) (c : cache)
  : result unit * cache :=
  if cached h v c then (Ok tt, c)
  else
    let c' := (h, v) :: c in
    let '(lo, hi) := hardware_limits p h in
    match validate_int (AInt v) lo hi with
    | Ok _ => (Ok tt, c')
    | Err e => (Err e, c')
    end.

(** The overridden validators: C9800CL (cisco_c9800cl.py:69-82) and CSR1000V
    (cisco_csr1000v.py:74-88) check the CPU count against a list every time.
    IOSv (cisco_iosv.py:54-70) only adds a warning. *)
Definition cpu_list (p : platform) : option (list Z) :=
  match p with
  | C9800CL => Some [4; 6; 10]%Z
  | CSR1000V => Some [1; 2; 4; 8]%Z
  | _ => None
  end.
Definition check_cpu_list (p : platform) (h : hardware) (v : Z) : result unit :=
  match h, cpu_list p with
  | HCpus, Some l => if existsb (Z.eqb v) l then Ok tt else Err EValueUnsupported
  | _, _ => Ok tt
  end.
Definition validate (p : platform) (h : hardware) (v : Z) (c : cache)
  : result unit * cache :=
  let '(r, c') := base_validate p h v c in
  match r with
  | Err e => (Err e, c')
  | Ok _ => (check_cpu_list p h v, c')
  end.

(** SUPPORTED_NIC_TYPES of every class: platform.py:78, cisco_c9800cl.py:31,
    cisco_csr1000v.py:31, cisco_iosv.py:32, cisco_iosxrv.py:41,
    cisco_iosxrv_9000.py:28, cisco_nexus_9000v.py:30, cisco_nxosv.py:30 *)
Definition supported_nic_types (p : platform) : list str :=
  match p with
  | Generic => NIC_TYPES
  | C9800CL | CSR1000V | IOSXRv9000 => [L "E1000"; L "virtio"; L "VMXNET3"]
  | IOSv => [L "E1000"]
  | IOSXRv | IOSXRvRP | IOSXRvLC | NXOSv => [L "E1000"; L "virtio"]
  | Nexus9000v => [L "E1000"; L "VMXNET3"]
  end.

(** validate_nic_type, platform.py:220-237 *)
Definition validate_nic_type (p : platform) (t : str) : result unit :=
  if mem_str t (supported_nic_types p) then Ok tt else Err EValueUnsupported.
(** validate_nic_types, platform.py:239-250 *)
Fixpoint validate_nic_types (p : platform) (l : list str) : result unit :=
  match l with
  | [] => Ok tt
  | t :: l' => do _ <- validate_nic_type p t; validate_nic_types p l'
  end.

(** controller_type_for_device: platform.py:144-154, cisco_c9800cl.py:41-55,
    cisco_csr1000v.py:41-55 *)
Definition controller_type_for_device (p : platform) (device_type : str) : str :=
  match p with
  | C9800CL | CSR1000V =>
      if str_eqb device_type (L "harddisk") then L "scsi"
      else if str_eqb device_type (L "cdrom") then L "ide"
      else L "ide"
  | _ => L "ide"
  end.

(** CONFIG_TEXT_FILE: platform.py:46 and overrides *)
Definition config_text_file (p : platform) : option str :=
  match p with
  | Generic => Some (L "config.txt")
  | C9800CL | CSR1000V => Some (L "iosxe_config.txt")
  | IOSv => Some (L "ios_config.txt")
  | IOSXRv | IOSXRvRP | IOSXRv9000 => Some (L "iosxr_config.txt")
  | IOSXRvLC => None
  | Nexus9000v | NXOSv => Some (L "nxos_config.txt")
  end.
(** SECONDARY_CONFIG_TEXT_FILE: platform.py:53 and overrides *)
Definition secondary_config_text_file (p : platform) : option str :=
  match p with
  | IOSXRv | IOSXRvRP | IOSXRv9000 => Some (L "iosxr_config_admin.txt")
  | _ => None
  end.
(** LITERAL_CLI_STRING: platform.py:62 and overrides *)
Definition literal_cli_string (p : platform) : option str :=
  match p with
  | Generic => Some (L "config")
  | C9800CL | CSR1000V => Some (L "ios-config")
  | _ => None
  end.
(** BOOTSTRAP_DISK_TYPE: platform.py:72, cisco_iosv.py:31 *)
Definition bootstrap_disk_type (p : platform) : str :=
  match p with IOSv => L "harddisk" | _ => L "cdrom" end.

(** guess_nic_name: platform.py:156-167, cisco_c9800cl.py:57-67,
    cisco_csr1000v.py:57-72, cisco_iosv.py:42-52, cisco_iosxrv.py:51-66,79-91,
    108-124, cisco_iosxrv_9000.py:37-58, cisco_nexus_9000v.py:40-57,
    cisco_nxosv.py:39-59 *)
Definition guess_nic_name (p : platform) (n : Z) : str :=
  (match p with
  | Generic => L "Ethernet" ++ zdec n
  | C9800CL | CSR1000V => L "GigabitEthernet" ++ zdec n
  | IOSv => L "GigabitEthernet0/" ++ zdec (n - 1)
  | IOSXRv =>
      if n =? 1 then L "MgmtEth0/0/CPU0/0"
      else L "GigabitEthernet0/0/0/" ++ zdec (n - 2)
  | IOSXRvRP =>
      if n =? 1 then L "fabric" else L "MgmtEth0/{SLOT}/CPU0/" ++ zdec (n - 2)
  | IOSXRvLC =>
      if n =? 1 then L "fabric" else L "GigabitEthernet0/{SLOT}/0/" ++ zdec (n - 2)
  | IOSXRv9000 =>
      if n =? 1 then L "MgmtEth0/0/CPU0/0"
      else if n =? 2 then L "CtrlEth"
      else if n =? 3 then L "DevEth"
      else L "GigabitEthernet0/0/0/" ++ zdec (n - 4)
  | Nexus9000v => if n =? 1 then L "mgmt0" else L "Ethernet1/" ++ zdec (n - 1)
  | NXOSv =>
      if n =? 1 then L "mgmt0"
      else L "Ethernet" ++ zdec ((n - 2) / 48 + 2) ++ L "/" ++ zdec ((n - 2) mod 48 + 1)
  end)%Z.
