(** C09, C10: guest platforms. *)
From Verif Require Import PyBase ValidationModel PlatformModel PlatformSpec PlatformProofs.

(** A value of some kind that was not validated before on this object is
    reported exactly when it is outside of the documented limits, with the error
    that says on which side. *)
Theorem C09_first_use : forall p history h v, ~ In (h, v) history ->
  let r := fst (validate p h v (after p [] history)) in
  (r = Err EValueTooLow <-> too_low p h v) /\
  (r = Err EValueTooHigh <-> too_high p h v) /\
  (r = Err EValueUnsupported <-> bad_cpu_count p h v /\ ~ too_low p h v /\ ~ too_high p h v) /\
  (r = Ok tt <-> ~ too_low p h v /\ ~ too_high p h v /\ ~ bad_cpu_count p h v).
Proof. exact validate_first_use. Qed.
Print Assumptions C09_first_use.

(** A value of the same kind seen before is accepted again, however bad, except
    for the CPU counts of CSR1000V and C9800-CL. *)
Theorem C09_later_use : forall p history h v, In (h, v) history ->
  let r := fst (validate p h v (after p [] history)) in
  (r = Ok tt <-> ~ bad_cpu_count p h v) /\
  (r = Err EValueUnsupported <-> bad_cpu_count p h v).
Proof. exact validate_later_use. Qed.
Print Assumptions C09_later_use.

(** "Out-of-limit values are always rejected" is false. *)
Theorem C09_always_rejected_refuted : exists p h v,
  (too_high p h v) /\
  fst (validate p h v []) = Err EValueTooHigh /\
  fst (validate p h v (after p [] [(h, v)])) = Ok tt.
Proof. exact validate_invalid_accepted. Qed.
Print Assumptions C09_always_rejected_refuted.

(** NIC type lists are accepted iff every member is supported. *)
Theorem C09_nic_types : forall p l,
  (validate_nic_types p l = Ok tt <-> forall t, In t l -> In t (supported_nic_types p)) /\
  (forall e, validate_nic_types p l = Err e ->
     e = EValueUnsupported /\ exists t, In t l /\ ~ In t (supported_nic_types p)).
Proof. exact validate_nic_types_spec. Qed.
Print Assumptions C09_nic_types.
Theorem C09_nic_types_canonical : forall p t, In t (supported_nic_types p) ->
  canonicalize_nic_subtype (Some t) = Ok (Some t).
Proof. exact supported_canonical. Qed.
Print Assumptions C09_nic_types_canonical.

Example C09_example :
  let hist := [(HNics, 2%Z); (HCpus, 3%Z); (HMemory, 27%Z)] in
  ~ In (HNics, 27%Z) hist /\
  fst (validate CSR1000V HNics 27 (after CSR1000V [] hist)) = Err EValueTooHigh /\
  fst (validate CSR1000V HNics 2 (after CSR1000V [] hist)) = Ok tt /\
  fst (validate CSR1000V HCpus 3 (after CSR1000V [] hist)) = Err EValueUnsupported /\
  too_high CSR1000V HNics 27.
Proof. cbn. repeat split. intuition discriminate. Qed.

(** Different NIC numbers get different names. *)
Theorem C10_nic_names_distinct : forall p m n, (1 <= m)%Z -> (1 <= n)%Z ->
  guess_nic_name p m = guess_nic_name p n -> m = n.
Proof. exact nic_names_distinct. Qed.
Print Assumptions C10_nic_names_distinct.

Example C10_example :
  guess_nic_name NXOSv 49 = L "Ethernet2/48" /\ guess_nic_name NXOSv 50 = L "Ethernet3/1" /\
  guess_nic_name NXOSv 1 = L "mgmt0" /\ guess_nic_name IOSXRv9000 4 = L "GigabitEthernet0/0/0/0" /\
  guess_nic_name IOSv 1 = L "GigabitEthernet0/0".
Proof. repeat split. Qed.

(** The names are the documented ones. *)
Theorem C10_documented : forall p n, (1 <= n)%Z -> documented_name p n (guess_nic_name p n).
Proof. exact nic_name_documented. Qed.
Print Assumptions C10_documented.

(** A product string selects a special platform only if it is exactly one of those known. *)
Theorem C44_product : forall s p, p <> Generic ->
  (for_product_string (Some s) = p <-> exists t, s = L t /\ documented_product t p).
Proof. exact product_exact. Qed.
Print Assumptions C44_product.
Theorem C44_nic_types : forall p s,
  In s (supported_nic_types p) <-> exists t, s = L t /\ documented_nic_type p t.
Proof. exact nic_types_documented. Qed.
Print Assumptions C44_nic_types.
(** Disks go on IDE controllers, except hard disks of the two IOS XE platforms. *)
Theorem C44_controller : forall p d,
  controller_type_for_device p d =
    if (match p with C9800CL | CSR1000V => true | _ => false end) && str_eqb d (L "harddisk")
    then L "scsi" else L "ide".
Proof. intros p d. destruct p; cbn; try reflexivity; destruct (str_eqb d _); cbn; try reflexivity; now destruct (str_eqb d _). Qed.
Print Assumptions C44_controller.
(** The files and the disk for the first configuration are the documented ones. *)
Theorem C44_bootstrap : forall p,
  (config_text_file p, secondary_config_text_file p, bootstrap_disk_type p, literal_cli_string p) =
  let '(f, s, d, l) := documented_bootstrap p in (option_map L f, option_map L s, L d, option_map L l).
Proof. intros p. destruct p; reflexivity. Qed.
Print Assumptions C44_bootstrap.
Example C44_example : for_product_string (Some (L "com.cisco.ios-xrv.rp")) = IOSXRvRP /\
  for_product_string (Some (L "com.cisco.ios-xrv.rp2")) = Generic /\ for_product_string None = Generic /\
  controller_type_for_device CSR1000V (L "harddisk") = L "scsi".
Proof. repeat split. Qed.
