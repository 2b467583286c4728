(** Independent vocabulary for platforms: the documented limits. *)
From Verif Require Import PyBase PlatformModel.

(** The quantities documented for each platform, as ranges. *)
Definition too_low (p : platform) (h : hardware) (v : Z) : Prop :=
  (match p, h with
  | Generic, (HCpus | HMemory) => v < 1
  | Generic, (HNics | HSerials) => v < 0
  | C9800CL, HCpus => v < 4 | C9800CL, HMemory => v < 8 * 1024
  | C9800CL, HNics => v < 1 | C9800CL, HSerials => v < 0
  | CSR1000V, HCpus => v < 1 | CSR1000V, HMemory => v < 2560
  | CSR1000V, HNics => v < 3 | CSR1000V, HSerials => v < 0
  | IOSv, HCpus => v < 1 | IOSv, HMemory => v < 192
  | IOSv, HNics => v < 0 | IOSv, HSerials => v < 1
  | (IOSXRv | IOSXRvRP | IOSXRvLC), HCpus => v < 1
  | (IOSXRv | IOSXRvRP | IOSXRvLC), HMemory => v < 3 * 1024
  | (IOSXRv | IOSXRvRP | IOSXRvLC), HNics => v < 1
  | (IOSXRv | IOSXRvRP), HSerials => v < 1
  | IOSXRvLC, HSerials => v < 0
  | IOSXRv9000, HCpus => v < 1 | IOSXRv9000, HMemory => v < 8 * 1024
  | IOSXRv9000, HNics => v < 4 | IOSXRv9000, HSerials => v < 1
  | Nexus9000v, HCpus => v < 1 | Nexus9000v, HMemory => v < 8 * 1024
  | Nexus9000v, HNics => v < 1 | Nexus9000v, HSerials => v < 1
  | NXOSv, HCpus => v < 1 | NXOSv, HMemory => v < 2 * 1024
  | NXOSv, HNics => v < 0 | NXOSv, HSerials => v < 1
  end)%Z.
Definition too_high (p : platform) (h : hardware) (v : Z) : Prop :=
  (match p, h with
  | C9800CL, HCpus => v > 10 | C9800CL, HMemory => v > 32 * 1024
  | C9800CL, HNics => v > 3 | C9800CL, HSerials => v > 2
  | CSR1000V, HCpus => v > 8 | CSR1000V, HMemory => v > 8 * 1024
  | CSR1000V, HNics => v > 26 | CSR1000V, HSerials => v > 2
  | IOSv, HCpus => v > 1 | IOSv, HMemory => v > 3 * 1024
  | IOSv, HNics => v > 16 | IOSv, HSerials => v > 2
  | (IOSXRv | IOSXRvRP | IOSXRvLC), HCpus => v > 8
  | (IOSXRv | IOSXRvRP | IOSXRvLC), HMemory => v > 8 * 1024
  | IOSXRvRP, HNics => v > 2
  | (IOSXRv | IOSXRvRP | IOSXRvLC), HSerials => v > 4
  | IOSXRv9000, HCpus => v > 32 | IOSXRv9000, HSerials => v > 4
  | Nexus9000v, HCpus => v > 4 | Nexus9000v, HNics => v > 65
  | Nexus9000v, HSerials => v > 1
  | NXOSv, HCpus => v > 8 | NXOSv, HMemory => v > 8 * 1024
  | NXOSv, HSerials => v > 2
  | _, _ => False
  end)%Z.
(** CPU counts that these two platforms never accept. *)
Definition bad_cpu_count (p : platform) (h : hardware) (v : Z) : Prop :=
  match p, h with
  | C9800CL, HCpus => ~ (v = 4 \/ v = 6 \/ v = 10)%Z
  | CSR1000V, HCpus => ~ (v = 1 \/ v = 2 \/ v = 4 \/ v = 8)%Z
  | _, _ => False
  end.

(** The object's memory after a history of calls (oldest first). *)
Fixpoint after (p : platform) (c : cache) (history : list (hardware * Z)) : cache :=
  match history with
  | [] => c
  | (h, v) :: rest => after p (snd (validate p h v c)) rest
  end.

(** The interface names documented for each platform, for NICs counted from 1. *)
Inductive documented_name : platform -> Z -> str -> Prop :=
| D_generic : forall n, documented_name Generic n (L "Ethernet" ++ zdec n)
| D_xe : forall p n, p = C9800CL \/ p = CSR1000V -> documented_name p n (L "GigabitEthernet" ++ zdec n)
| D_iosv : forall k, documented_name IOSv (k + 1) (L "GigabitEthernet0/" ++ zdec k)
| D_xrv_mgmt : documented_name IOSXRv 1 (L "MgmtEth0/0/CPU0/0")
| D_xrv : forall k, (0 <= k)%Z -> documented_name IOSXRv (k + 2) (L "GigabitEthernet0/0/0/" ++ zdec k)
| D_fabric : forall p, p = IOSXRvRP \/ p = IOSXRvLC -> documented_name p 1 (L "fabric")
| D_rp : forall k, (0 <= k)%Z -> documented_name IOSXRvRP (k + 2) (L "MgmtEth0/{SLOT}/CPU0/" ++ zdec k)
| D_lc : forall k, (0 <= k)%Z -> documented_name IOSXRvLC (k + 2) (L "GigabitEthernet0/{SLOT}/0/" ++ zdec k)
| D_9000_mgmt : documented_name IOSXRv9000 1 (L "MgmtEth0/0/CPU0/0")
| D_9000_ctrl : documented_name IOSXRv9000 2 (L "CtrlEth")
| D_9000_dev : documented_name IOSXRv9000 3 (L "DevEth")
| D_9000 : forall k, (0 <= k)%Z -> documented_name IOSXRv9000 (k + 4) (L "GigabitEthernet0/0/0/" ++ zdec k)
| D_nx_mgmt : forall p, p = Nexus9000v \/ p = NXOSv -> documented_name p 1 (L "mgmt0")
| D_9k : forall k, (1 <= k)%Z -> documented_name Nexus9000v (k + 1) (L "Ethernet1/" ++ zdec k)
| D_nx : forall slot port, (2 <= slot)%Z -> (1 <= port <= 48)%Z ->
    documented_name NXOSv ((slot - 2) * 48 + port + 1) (L "Ethernet" ++ zdec slot ++ L "/" ++ zdec port).

(** Which product strings are known. *)
Inductive documented_product : string -> platform -> Prop :=
| P_vwlc : documented_product "com.cisco.vwlc" C9800CL
| P_csr : documented_product "com.cisco.csr1000v" CSR1000V
| P_iosv : documented_product "com.cisco.iosv" IOSv
| P_xrv : documented_product "com.cisco.ios-xrv" IOSXRv
| P_xrv_rp : documented_product "com.cisco.ios-xrv.rp" IOSXRvRP
| P_xrv_lc : documented_product "com.cisco.ios-xrv.lc" IOSXRvLC
| P_9000 : documented_product "com.cisco.ios-xrv9000" IOSXRv9000
| P_xrv64 : documented_product "com.cisco.ios-xrv64" IOSXRv9000
| P_n9k : documented_product "com.cisco.n9k" Nexus9000v
| P_nxosv : documented_product "com.cisco.nx-osv" NXOSv.

(** The NIC types documented for each platform. *)
Definition documented_nic_type (p : platform) (t : string) : Prop :=
  (match p with
   | Generic => t = "E1000e" \/ t = "E1000" \/ t = "PCNet32" \/ t = "virtio" \/ t = "VMXNET3"
   | IOSv => t = "E1000"
   | C9800CL | CSR1000V | IOSXRv9000 => t = "E1000" \/ t = "virtio" \/ t = "VMXNET3"
   | Nexus9000v => t = "E1000" \/ t = "VMXNET3"
   | IOSXRv | IOSXRvRP | IOSXRvLC | NXOSv => t = "E1000" \/ t = "virtio"
   end)%string.

(** How each platform is given its first configuration: the file it looks for, the one for the
    secondary (admin) configuration, the kind of disk, and the prefix of properties with literal
    commands. *)
Definition documented_bootstrap (p : platform) : option string * option string * string * option string :=
  (match p with
   | Generic => (Some "config.txt", None, "cdrom", Some "config")
   | C9800CL => (Some "iosxe_config.txt", None, "cdrom", Some "ios-config")
   | CSR1000V => (Some "iosxe_config.txt", None, "cdrom", Some "ios-config")
   | IOSv => (Some "ios_config.txt", None, "harddisk", None)
   | IOSXRv => (Some "iosxr_config.txt", Some "iosxr_config_admin.txt", "cdrom", None)
   | IOSXRvRP => (Some "iosxr_config.txt", Some "iosxr_config_admin.txt", "cdrom", None)
   | IOSXRvLC => (None, None, "cdrom", None)
   | IOSXRv9000 => (Some "iosxr_config.txt", Some "iosxr_config_admin.txt", "cdrom", None)
   | Nexus9000v => (Some "nxos_config.txt", None, "cdrom", None)
   | NXOSv => (Some "nxos_config.txt", None, "cdrom", None)
   end)%string.

