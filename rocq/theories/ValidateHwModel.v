(** Model of OVF.validate_hardware, COT/vm_description/ovf/ovf.py:469-536: the check of
    the hardware against the limits of the platform, made whenever the VM is written
    (ovf.py:824).  The log output is modelled by a list of warnings. *)
From Verif Require Import PyBase PyDict UnitsModel ValidationModel PlatformModel XmlModel NamesModel
  ItemModel HardwareModel.

(** The local variable [result], the platform's memory of values it has seen, and the
    warnings: the profile and what is wrong ([None]: the NIC types). *)
Record checked : Type := mkChecked {
  k_ok : bool;
  k_seen : cache;
  k_warn : list (profile * option hardware) }.

(** ovf.py:486-503 _validate_helper, with [result &= ...]: only a ValueUnsupportedError
    becomes a warning. *)
Definition noted (q : profile) (w : option hardware) (r : result unit) (seen : cache) (s : checked)
    : result checked :=
  match r with
  | Ok _ => Ok (mkChecked (k_ok s) seen (k_warn s))
  | Err e => if is_value_unsupported e then Ok (mkChecked false seen (k_warn s ++ [(q, w)])) else Err e
  end.
Definition check_number (p : platform) (q : profile) (h : hardware) (n : Z) (s : checked) : result checked :=
  let (r, seen) := PlatformModel.validate p h n (k_seen s) in noted q (Some h) r seen s.
Definition check_types (p : platform) (q : profile) (l : list str) (s : checked) : result checked :=
  noted q None (validate_nic_types p l) (k_seen s) s.

(** [int(x)] of what get_value returns *)
Definition int_of (o : option value) : result Z :=
  match o with Some (VStr s) => int_or_err s | _ => Err ETypeError end.
(** ovf.py:517-523: the bytes, divided by 2^20 to a float (UnitsModel) and truncated.  A
    missing quantity makes [int(None)] fail; where the units are wrong as well, the
    order of the two errors is not modelled. *)
Definition bytes_of (quantity units : option value) : result Z :=
  match quantity, units with
  | Some (VStr s), None => programmatic_bytes_to_int s []
  | Some (VStr s), Some (VStr u) => programmatic_bytes_to_int s u
  | _, _ => Err ETypeError
  end.
Definition mebibytes (bytes : Z) : result Z :=
  let r := round53 bytes in
  if (2 ^ 1044 <=? Z.abs r)%Z then Err EOverflowError else Ok (Z.quot r (2 ^ 20)).

Section Validate.
Variables (p : platform) (E : env) (h : hw).

(** ovf.py:509-514 *)
Definition check_cpus (q : profile) (s : checked) : result checked :=
  do k <- find_item E h (Some (L "cpu")) [] q;
  match k with
  | None => Ok s
  | Some k =>
      do i <- hitem k h;
      do o <- get_value E (i_props i) VIRTUAL_QUANTITY (Some [q]);
      do n <- int_of o;
      check_number p q HCpus n s
  end.
(** ovf.py:516-525 *)
Definition check_memory (q : profile) (s : checked) : result checked :=
  do k <- find_item E h (Some (L "memory")) [] q;
  match k with
  | None => Ok s
  | Some k =>
      do i <- hitem k h;
      do o <- get_value E (i_props i) VIRTUAL_QUANTITY (Some [q]);
      do u <- get_value E (i_props i) ALLOCATION_UNITS (Some [q]);
      do b <- bytes_of o u;
      do m <- mebibytes b;
      check_number p q HMemory m s
  end.
(** ovf.py:527-529 *)
Definition check_nics (q : profile) (s : checked) : result checked :=
  do n <- get_item_count E h (Some (L "ethernet")) q;
  check_number p q HNics n s.
(** ovf.py:531-535 *)
Definition nic_types : result (list str) :=
  do ks <- find_all_items E h (Some (L "ethernet")) [] [];
  do ls <- fold_result (fun ls k => do i <- hitem k h; Ok (ls ++ [get_all_subtypes (i_props i)])) ks [];
  Ok (list_union ls).
Definition check_nic_types (q : profile) (s : checked) : result checked :=
  do l <- nic_types;
  check_types p q l s.

(** ovf.py:505-535, the body of the loop over the profiles *)
Definition check_profile (s : checked) (q : profile) : result checked :=
  do s1 <- check_cpus q s;
  do s2 <- check_memory q s1;
  do s3 <- check_nics q s2;
  check_nic_types q s3.

(** ovf.py:475-536 *)
Definition validated_profiles : list profile :=
  match e_profiles E with [] => [None] | l => map Some l end.
Definition validate_hardware (seen : cache) : result checked :=
  fold_result check_profile validated_profiles (mkChecked true seen []).
End Validate.
