(** C78: which add-disk commands succeed. *)
From Coq Require Import Lia ZArith.
From Verif Require Import PyBase PyBaseProofs PyDict ValidationModel XmlModel NamesModel UnitsModel UnitsProofs ItemModel ItemSpec PsetProofs ItemReachProofs
  HardwareModel HardwareSpec HardwareProofs HardwareIdProofs CountSpec FindSpec FindProofs SlotProofs NetworkModel DriveModel DriveSpec OrderlyProofs
  ItemProps HardwareProps CountProps FindProps DriveProps AcceptSpec AcceptProofs AcceptDiskProofs AcceptProps.
Local Open Scope nat_scope.

(** A disk image whose name and identifier are not in the package yet can be added, without
    any question, if there is a controller of the type that has room.  (The loop that finds
    the unit of the capacity needs enough steps, [fuel].) *)
Theorem C78_add_disk : forall E m im, orderly E m -> attached E m -> sortable m -> plain_addresses (m_hw m) ->
  (0 < im_capacity im < 2 ^ 63)%Z ->
  exists enough, forall fuel, enough <= fuel ->
  forall agree guess dt file_id controller diskname ct,
  dt = L "harddisk" \/ dt = L "cdrom" ->
  ct = match controller with Some c => c | None => guess dt end -> In ct [L "ide"; L "scsi"; L "sata"] ->
  (forall f, ~ meant (e_ver E) m (Some (im_name im)) (Some (match file_id with Some s => s | None => im_name im end)) f) ->
  (exists k i, In (k, i) (m_hw m) /\ is_a ct i /\ ~ full (m_hw m) ct k) ->
  exists m' k, add_disk_worker agree E fuel guess m im dt file_id controller None None diskname None = Ok (m', k).
Proof.
  intros E m im O A S P Hc. destruct (roundtrip_below_8EiB (im_capacity im) Hc) as [enough Hf]. exists enough.
  intros fuel Hl agree guess dt file_id controller diskname ct Hdt Hct Hk N Hr.
  apply (add_disk_accepted agree E fuel guess m im dt file_id controller diskname ct); try assumption. intros _.
  destruct (Hf fuel Hl) as (b & u & Eu & _). unfold capacity_attrs. rewrite Eu. destruct (e_ver E); cbn [rbind]; eauto.
Qed.
Print Assumptions C78_add_disk.

(** If every controller of the type is full, or there is none, and the user does not want a
    new one, the command ends and nothing is done. *)
Theorem C78_add_disk_refused : forall agree E fuel guess m im dt file_id controller subtype diskname desc ct,
  orderly E m -> attached E m -> sortable m ->
  ct = match controller with Some c => c | None => guess dt end -> In ct [L "ide"; L "scsi"; L "sata"] ->
  (forall f, ~ meant (e_ver E) m (Some (im_name im)) (Some (match file_id with Some s => s | None => im_name im end)) f) ->
  (forall k i, In (k, i) (m_hw m) -> is_a ct i -> full (m_hw m) ct k) -> agree (AddController ct) = false ->
  add_disk_worker agree E fuel guess m im dt file_id controller subtype None diskname desc = Err ESystemExit.
Proof.
  intros agree E fuel guess m im dt file_id controller subtype diskname desc ct O A S Hct Hk. apply add_disk_refused; try assumption.
  destruct Hk as [<-|[<-|[<-|[]]]]; eexists; vm_compute; reflexivity.
Qed.
Print Assumptions C78_add_disk_refused.

(** A new disk image can also be put at an address that the user gives, without any question,
    if there is one controller with the first number, nothing on it with the second, and the
    second is not too high. *)
Theorem C78_add_disk_at : forall E m im, orderly E m -> attached E m -> sortable m -> (0 < im_capacity im < 2 ^ 63)%Z ->
  exists enough, forall fuel, enough <= fuel ->
  forall agree guess dt file_id c x y diskname ck ci,
  dt = L "harddisk" \/ dt = L "cdrom" -> In c [L "ide"; L "scsi"; L "sata"] -> ~ In ":"%char x -> ~ In ":"%char y ->
  (forall f, ~ meant (e_ver E) m (Some (im_name im)) (Some (match file_id with Some s => s | None => im_name im end)) f) ->
  In (ck, ci) (m_hw m) -> is_a c ci -> present E ci None -> only_value (i_props ci) ADDRESS (VStr x) ->
  (forall k i, In (k, i) (m_hw m) -> present E i None -> is_a c i -> only_value (i_props i) ADDRESS (VStr x) -> k = ck) ->
  (forall k i, In (k, i) (m_hw m) -> present E i None -> only_value (i_props i) PARENT (VStr ck) -> ~ only_value (i_props i) ADDRESS_ON_PARENT (VStr y)) ->
  (c = L "scsi" -> exists z, py_int y = Some z /\ (z <= 15)%Z) -> (c = L "ide" -> exists z, py_int y = Some z /\ (z <= 1)%Z) ->
  exists m' k, add_disk_worker agree E fuel guess m im dt file_id (Some c) None (Some (x ++ L ":" ++ y)) diskname None = Ok (m', k).
Proof.
  intros E m im O A S Hc. destruct (roundtrip_below_8EiB (im_capacity im) Hc) as [enough Hf]. exists enough.
  intros fuel Hl agree guess dt file_id c x y diskname ck ci Hdt Hk Nx Ny N Hin Ha Pc Hx Ux Uy L1 L2.
  apply (add_disk_at_accepted agree E fuel guess m im dt file_id c x y diskname ck ci); try assumption. intros _.
  destruct (Hf fuel Hl) as (b & u & Eu & _). unfold capacity_attrs. rewrite Eu. destruct (e_ver E); cbn [rbind]; eauto.
Qed.
Print Assumptions C78_add_disk_at.

(** A new controller of a type can be added if some address that is not too high for the type
    is not used by another. *)
Theorem C78_add_controller : forall E m ct subtype b, ids_ok (e_ver E) (m_hw m) -> sortable m ->
  In ct [L "ide"; L "scsi"; L "sata"] -> (0 <= b)%Z -> ~ controller_at (m_hw m) ct b -> (forall y, last_controller ct y -> (b <= y)%Z) ->
  exists m' k, add_controller_device E m ct subtype None None = Ok (m', k).
Proof.
  intros E m ct subtype b Hi [keys S] Hk Hb Hf Hl. apply (add_controller_accepted E m ct subtype keys b); try assumption.
  now apply names_plain.
Qed.
Print Assumptions C78_add_controller.

(** If every controller of the type is full, or there is none, and the user wants a new one,
    then the disk is added, with the new controller, if there is an address for it and no
    device is said to be on a controller that is not there. *)
Theorem C78_add_disk_controller : forall E m im, orderly E m -> attached E m -> sortable m ->
  (forall k i w, In (k, i) (m_hw m) -> only_value (i_props i) PARENT (VStr w) -> exists j, In (w, j) (m_hw m)) ->
  (0 < im_capacity im < 2 ^ 63)%Z ->
  exists enough, forall fuel, enough <= fuel ->
  forall agree guess dt file_id controller subtype diskname ct b,
  dt = L "harddisk" \/ dt = L "cdrom" ->
  ct = match controller with Some c => c | None => guess dt end -> In ct [L "ide"; L "scsi"; L "sata"] ->
  (forall f, ~ meant (e_ver E) m (Some (im_name im)) (Some (match file_id with Some s => s | None => im_name im end)) f) ->
  (forall k i, In (k, i) (m_hw m) -> is_a ct i -> full (m_hw m) ct k) -> agree (AddController ct) = true ->
  (0 <= b)%Z -> ~ controller_at (m_hw m) ct b -> (forall y, last_controller ct y -> (b <= y)%Z) ->
  exists m' k, add_disk_worker agree E fuel guess m im dt file_id controller subtype None diskname None = Ok (m', k).
Proof.
  intros E m im O A S ND Hc. destruct (roundtrip_below_8EiB (im_capacity im) Hc) as [enough Hf]. exists enough.
  intros fuel Hl agree guess dt file_id controller subtype diskname ct b Hdt Hct Hk N F NA Hb Hfr Hla.
  apply (add_disk_controller_accepted agree E fuel guess m im dt file_id controller subtype diskname ct b); try assumption.
  - now apply names_plain.
  - intros _. destruct (Hf fuel Hl) as (x & u & Eu & _). unfold capacity_attrs. rewrite Eu. destruct (e_ver E); cbn [rbind]; eauto.
Qed.
Print Assumptions C78_add_disk_controller.

(** If all addresses are used there is no new controller, and if all controllers of the type
    are full as well, no disk is added: the address is too high. *)
Theorem C78_add_controller_refused : forall E m ct subtype y, ids_ok (e_ver E) (m_hw m) -> sortable m ->
  In ct [L "ide"; L "scsi"; L "sata"] -> last_controller ct y -> (forall b, (0 <= b <= y)%Z -> controller_at (m_hw m) ct b) ->
  add_controller_device E m ct subtype None None = Err EValueTooHigh.
Proof. exact add_controller_refused. Qed.
Print Assumptions C78_add_controller_refused.

Theorem C78_add_disk_no_controller : forall E m im, orderly E m -> attached E m -> sortable m -> (0 < im_capacity im < 2 ^ 63)%Z ->
  exists enough, forall fuel, enough <= fuel ->
  forall agree guess dt file_id controller subtype diskname desc ct y,
  dt = L "harddisk" \/ dt = L "cdrom" ->
  ct = match controller with Some c => c | None => guess dt end -> In ct [L "ide"; L "scsi"; L "sata"] ->
  (forall f, ~ meant (e_ver E) m (Some (im_name im)) (Some (match file_id with Some s => s | None => im_name im end)) f) ->
  (forall k i, In (k, i) (m_hw m) -> is_a ct i -> full (m_hw m) ct k) -> agree (AddController ct) = true ->
  last_controller ct y -> (forall b, (0 <= b <= y)%Z -> controller_at (m_hw m) ct b) ->
  add_disk_worker agree E fuel guess m im dt file_id controller subtype None diskname desc = Err EValueTooHigh.
Proof.
  intros E m im O A S Hc. destruct (roundtrip_below_8EiB (im_capacity im) Hc) as [enough Hf]. exists enough.
  intros fuel Hl agree guess dt file_id controller subtype diskname desc ct y Hdt Hct Hk N F NA Hy Hall.
  apply (add_disk_no_controller agree E fuel guess m im dt file_id controller subtype diskname desc ct y); try assumption.
  intros _. destruct (Hf fuel Hl) as (x & u & Eu & _). unfold capacity_attrs. rewrite Eu. destruct (e_ver E); cbn [rbind]; eauto.
Qed.
Print Assumptions C78_add_disk_no_controller.

(** A new disk image can be put on a new controller at an address that the user gives, if they
    agree and no controller of the type has the first number, and neither is too high. *)
Theorem C78_add_disk_at_new : forall E m im, orderly E m -> attached E m -> sortable m -> (0 < im_capacity im < 2 ^ 63)%Z ->
  exists enough, forall fuel, enough <= fuel ->
  forall agree guess dt file_id c subtype x y diskname,
  dt = L "harddisk" \/ dt = L "cdrom" -> In c [L "ide"; L "scsi"; L "sata"] -> ~ In ":"%char x -> ~ In ":"%char y ->
  (forall f, ~ meant (e_ver E) m (Some (im_name im)) (Some (match file_id with Some s => s | None => im_name im end)) f) ->
  (forall k i, In (k, i) (m_hw m) -> present E i None -> is_a c i -> ~ only_value (i_props i) ADDRESS (VStr x)) ->
  agree (AddController c) = true ->
  (c = L "scsi" -> exists z, py_int x = Some z /\ (z <= 3)%Z) -> (c = L "ide" -> exists z, py_int x = Some z /\ (z <= 1)%Z) ->
  (c = L "scsi" -> exists z, py_int y = Some z /\ (z <= 15)%Z) -> (c = L "ide" -> exists z, py_int y = Some z /\ (z <= 1)%Z) ->
  exists m' k, add_disk_worker agree E fuel guess m im dt file_id (Some c) subtype (Some (x ++ L ":" ++ y)) diskname None = Ok (m', k).
Proof.
  intros E m im O A S Hc. destruct (roundtrip_below_8EiB (im_capacity im) Hc) as [enough Hf]. exists enough.
  intros fuel Hl agree guess dt file_id c subtype x y diskname Hdt Hk Nx Ny N Ux NA X1 X2 Y1 Y2.
  apply (add_disk_at_new agree E fuel guess m im dt file_id c subtype x y diskname); try assumption.
  - now apply low_enough.
  - now apply low_enough.
  - intros _. destruct (Hf fuel Hl) as (b & u & Eu & _). unfold capacity_attrs. rewrite Eu. destruct (e_ver E); cbn [rbind]; eauto.
Qed.
Print Assumptions C78_add_disk_at_new.

(** If they do not agree, nothing is done. *)
Theorem C78_add_disk_at_refused : forall agree E fuel guess m im dt file_id c subtype x y diskname desc,
  orderly E m -> attached E m -> sortable m -> In c [L "ide"; L "scsi"; L "sata"] -> ~ In ":"%char x -> ~ In ":"%char y ->
  (forall f, ~ meant (e_ver E) m (Some (im_name im)) (Some (match file_id with Some s => s | None => im_name im end)) f) ->
  (forall k i, In (k, i) (m_hw m) -> present E i None -> is_a c i -> ~ only_value (i_props i) ADDRESS (VStr x)) ->
  agree (AddController c) = false ->
  add_disk_worker agree E fuel guess m im dt file_id (Some c) subtype (Some (x ++ L ":" ++ y)) diskname desc = Err ESystemExit.
Proof. exact add_disk_at_refused. Qed.
Print Assumptions C78_add_disk_at_refused.

(** ** Non-vacuity *)

(** In a package with one disk the IDE controller has room for a CD-ROM; in one with both,
    it is full. *)
Lemma not_there : forall m name, forallb (fun e => negb (opt_eqb (get_attr e (FILE_HREF V1)) (Some name)) && negb (opt_eqb (get_attr e (FILE_ID V1)) (Some name))) (files V1 m) = true ->
  forall f, ~ meant V1 m (Some name) (Some name) f.
Proof.
  intros m name H f [Hf G]. rewrite forallb_forall in H. specialize (H f Hf). apply andb_true_iff in H as [H1 H2].
  assert (R : opt_eqb (Some name) (Some name) = true) by (cbn; apply str_eqb_refl).
  destruct G as [(s & Es & G)|(s & Es & G)]; injection Es as <-; [rewrite G, R in H1; discriminate H1|rewrite G, R in H2; discriminate H2].
Qed.

Lemma has_room : forall m k a, orderly env0 m -> find_open_controller env0 m (L "ide") = Ok (Some (k, a)) ->
  exists k i, In (k, i) (m_hw m) /\ is_a (L "ide") i /\ ~ full (m_hw m) (L "ide") k.
Proof.
  intros m k a O E. assert (K : ids_ok (e_ver env0) (m_hw m)) by exact (o_ids _ _ O). pose proof (o_named _ _ O) as D.
  assert (T : dget str_eqb (L "ide") RES_MAP = Some (L "5")) by (vm_compute; reflexivity).
  pose proof (find_open_spec env0 m (L "ide") (L "5") K D T) as F. rewrite E in F.
  destruct F as (ks1 & ks2 & ca & z & (_ & _ & W) & _ & _ & _ & (X1 & X2 & _) & X5).
  destruct (proj1 (W k)) as (ci & Hci & Wc & _); [apply in_or_app; right; now left|].
  exists k, ci. split; [exact Hci|]. split; [exact (Wc (L "ide") eq_refl)|]. intros (y & Ly & Hy). apply X2, Hy. split; [exact X1|]. exact (X5 y Ly).
Qed.
Lemma no_room : forall m, orderly env0 m -> find_open_controller env0 m (L "ide") = Ok None ->
  forall k i, In (k, i) (m_hw m) -> is_a (L "ide") i -> full (m_hw m) (L "ide") k.
Proof.
  intros m O E. assert (K : ids_ok (e_ver env0) (m_hw m)) by exact (o_ids _ _ O). pose proof (o_named _ _ O) as D.
  assert (T : dget str_eqb (L "ide") RES_MAP = Some (L "5")) by (vm_compute; reflexivity).
  pose proof (find_open_spec env0 m (L "ide") (L "5") K D T) as F. rewrite E in F. exact F.
Qed.

Example C78_add_disk_example : orderly env0 m1 /\ attached env0 m1 /\ sortable m1 /\ plain_addresses (m_hw m1) /\
  (forall f, ~ meant V1 m1 (Some (im_name iso)) (Some (im_name iso)) f) /\
  (exists k i, In (k, i) (m_hw m1) /\ is_a (L "ide") i /\ ~ full (m_hw m1) (L "ide") k) /\
  exists k, add_disk_worker no env0 100 ide m1 iso (L "cdrom") None None None None None None = Ok (m2, k).
Proof.
  assert (O : orderly env0 m1) by exact (managed_orderly _ _ _ base_orderly history1).
  split; [exact O|]. split; [apply attached_ok; [exact O|vm_compute; reflexivity]|]. split; [eexists; vm_compute; reflexivity|].
  split; [apply plain_addresses_ok; vm_compute; reflexivity|]. split; [apply not_there; vm_compute; reflexivity|].
  split; [|eexists; vm_compute; reflexivity]. apply (has_room m1 (L "2") (L "0:1") O). vm_compute. reflexivity.
Qed.
Example C78_add_disk_refused_example : orderly env0 m2 /\ attached env0 m2 /\ sortable m2 /\
  (forall f, ~ meant V1 m2 (Some (im_name data)) (Some (im_name data)) f) /\
  (forall k i, In (k, i) (m_hw m2) -> is_a (L "ide") i -> full (m_hw m2) (L "ide") k) /\ no (AddController (L "ide")) = false /\
  add_disk_worker no env0 100 ide m2 data (L "harddisk") None None None None None None = Err ESystemExit.
Proof.
  assert (O : orderly env0 m2) by exact (managed_orderly _ _ _ base_orderly history2).
  split; [exact O|]. split; [apply attached_ok; [exact O|vm_compute; reflexivity]|]. split; [eexists; vm_compute; reflexivity|].
  split; [apply not_there; vm_compute; reflexivity|]. split; [|split; [reflexivity|vm_compute; reflexivity]].
  apply (no_room m2 O). vm_compute. reflexivity.
Qed.

(** In the package with one disk, address 3 of the SCSI controller 0 is free. *)
Lemma at_free : forall m c x y ck, orderly env0 m -> find_item env0 (m_hw m) (Some c) [(ADDRESS, Some (VStr x))] None = Ok (Some ck) ->
  find_item env0 (m_hw m) None [(PARENT, Some (VStr ck)); (ADDRESS_ON_PARENT, Some (VStr y))] None = Ok None ->
  exists ci, In (ck, ci) (m_hw m) /\ is_a c ci /\ present env0 ci None /\ only_value (i_props ci) ADDRESS (VStr x) /\
  (forall k i, In (k, i) (m_hw m) -> present env0 i None -> is_a c i -> only_value (i_props i) ADDRESS (VStr x) -> k = ck) /\
  (forall k i, In (k, i) (m_hw m) -> present env0 i None -> only_value (i_props i) PARENT (VStr ck) -> ~ only_value (i_props i) ADDRESS_ON_PARENT (VStr y)).
Proof.
  intros m c x y ck O E1 E2. assert (K : ids_ok (e_ver env0) (m_hw m)) by exact (o_ids _ _ O).
  assert (C1 : plain_conditions (e_ver env0) [(ADDRESS, Some (VStr x))]) by (intros q [<-|[]]; apply ADDRESS_not_text).
  assert (C2 : plain_conditions (e_ver env0) [(PARENT, Some (VStr ck)); (ADDRESS_ON_PARENT, Some (VStr y))])
    by (intros q [<-|[<-|[]]]; [apply PARENT_not_text|apply AOP_not_text]).
  pose proof (find_item_wanted env0 (m_hw m) (Some c) _ None K C1) as F1. rewrite E1 in F1.
  pose proof (find_item_wanted env0 (m_hw m) None _ None K C2) as F2. rewrite E2 in F2.
  destruct F1 as (ci & Hin & (W1 & W2 & W3) & U). exists ci. split; [exact Hin|]. split; [exact (W1 c eq_refl)|].
  split; [exact (W2 None (or_introl eq_refl))|]. split; [exact (W3 _ (or_introl eq_refl))|]. split.
  - intros k i Hk P A X. apply (U k i Hk). split; [intros t Et; injection Et as <-; exact A|]. split; [intros q [<-|[]]; exact P|]. intros q [<-|[]]. exact X.
  - intros k i Hk P A X. apply (F2 k i Hk). split; [discriminate|]. split; [intros q [<-|[]]; exact P|]. intros q [<-|[<-|[]]]; assumption.
Qed.
Example C78_add_disk_at_example : exists ci, In (L "3", ci) (m_hw m1) /\ is_a (L "scsi") ci /\ present env0 ci None /\
  only_value (i_props ci) ADDRESS (VStr (L "0")) /\
  (forall k i, In (k, i) (m_hw m1) -> present env0 i None -> is_a (L "scsi") i -> only_value (i_props i) ADDRESS (VStr (L "0")) -> k = L "3") /\
  (forall k i, In (k, i) (m_hw m1) -> present env0 i None -> only_value (i_props i) PARENT (VStr (L "3")) -> ~ only_value (i_props i) ADDRESS_ON_PARENT (VStr (L "3"))).
Proof.
  apply at_free; [exact (managed_orderly _ _ _ base_orderly history1)|vm_compute; reflexivity|vm_compute; reflexivity].
Qed.
Definition how_disk (r : result (vmd * str)) : option exn := match r with Ok _ => None | Err e => Some e end.
Example C78_add_disk_at_outcomes :
  how_disk (add_disk_worker no env0 100 ide m1 data (L "harddisk") None (Some (L "scsi")) None (Some (L "0:3")) None None) = None /\
  how_disk (add_disk_worker no env0 100 ide m1 data (L "harddisk") None (Some (L "scsi")) None (Some (L "0:16")) None None) = Some EValueTooHigh /\
  how_disk (add_disk_worker no env0 100 ide m1 data (L "harddisk") None (Some (L "ide")) None (Some (L "0:0")) None None) = Some ESystemExit.
Proof. vm_compute. repeat split. Qed.

(** In the package with both disks, whose IDE controller is full, a second IDE controller is
    added if the user wants it. *)
Definition shown (i : item) (n : str) : option value := match value_of env0 (mkVmd (Elem [] [] None None []) None [([], i)] []) [] n with Ok o => o | Err _ => None end.
Lemma shown_only : forall m k i n v, ids_ok (e_ver env0) (m_hw m) -> In (k, i) (m_hw m) -> ~ text_property (e_ver env0) n -> only_value (i_props i) n v -> shown i n = Some v.
Proof.
  intros m k i n v Hi Hin T O. destruct (value_of_only env0 m k i n Hi Hin T) as (o & Eo & Ho). unfold shown.
  unfold value_of in *. rewrite (proj2 (hitem_In _ k i (proj1 Hi)) Hin) in Eo. unfold hitem. cbn [m_hw hget dget str_eqb rbind] in *.
  rewrite Eo. now apply Ho.
Qed.
Lemma parents_there : forall m, ids_ok (e_ver env0) (m_hw m) ->
  forallb (fun ki => match shown (snd ki) PARENT with Some (VStr w) => existsb (fun kj => str_eqb w (fst kj)) (m_hw m) | _ => true end) (m_hw m) = true ->
  forall k i w, In (k, i) (m_hw m) -> only_value (i_props i) PARENT (VStr w) -> exists j, In (w, j) (m_hw m).
Proof.
  intros m Hi H k i w Hin O. rewrite forallb_forall in H. specialize (H _ Hin). cbn [snd] in H.
  rewrite (shown_only m k i PARENT _ Hi Hin (PARENT_not_text env0) O) in H. apply existsb_exists in H as ([k' j] & Hj & Ek).
  apply str_eqb_eq in Ek. cbn [fst] in Ek. subst k'. eauto.
Qed.
Lemma address_free : forall m ct t b, ids_ok (e_ver env0) (m_hw m) -> dget str_eqb ct RES_MAP = Some t ->
  forallb (fun ki => negb (opt_value_eqb (shown (snd ki) RESOURCE_TYPE) (Some (VStr t)) && opt_value_eqb (shown (snd ki) ADDRESS) (Some (VStr (zdec b))))) (m_hw m) = true ->
  ~ controller_at (m_hw m) ct b.
Proof.
  intros m ct t b Hi Ht H (t' & k & i & Et & Hin & O1 & O2). rewrite Ht in Et. injection Et as <-.
  rewrite forallb_forall in H. specialize (H _ Hin). cbn [snd] in H.
  rewrite (shown_only m k i RESOURCE_TYPE _ Hi Hin (RT_plain _) O1), (shown_only m k i ADDRESS _ Hi Hin (ADDRESS_not_text env0) O2) in H.
  cbn in H. rewrite !str_eqb_refl in H. discriminate H.
Qed.
Example C78_add_disk_controller_example : orderly env0 m2 /\ attached env0 m2 /\ sortable m2 /\
  (forall k i w, In (k, i) (m_hw m2) -> only_value (i_props i) PARENT (VStr w) -> exists j, In (w, j) (m_hw m2)) /\
  (forall f, ~ meant V1 m2 (Some (im_name data)) (Some (im_name data)) f) /\
  (forall k i, In (k, i) (m_hw m2) -> is_a (L "ide") i -> full (m_hw m2) (L "ide") k) /\ yes (AddController (L "ide")) = true /\
  ~ controller_at (m_hw m2) (L "ide") 1 /\ (forall y, last_controller (L "ide") y -> (1 <= y)%Z) /\
  how_disk (add_disk_worker yes env0 100 ide m2 data (L "harddisk") None None None None None None) = None.
Proof.
  assert (O : orderly env0 m2) by exact (managed_orderly _ _ _ base_orderly history2). assert (Hi : ids_ok (e_ver env0) (m_hw m2)) by exact (o_ids _ _ O).
  split; [exact O|]. split; [apply attached_ok; [exact O|vm_compute; reflexivity]|]. split; [eexists; vm_compute; reflexivity|].
  split; [apply (parents_there m2 Hi); vm_compute; reflexivity|]. 
  split; [apply not_there; vm_compute; reflexivity|]. split; [apply (no_room m2 O); vm_compute; reflexivity|]. split; [reflexivity|].
  split; [apply (address_free m2 (L "ide") (L "5") 1 Hi); vm_compute; reflexivity|].
  split; [|vm_compute; reflexivity]. intros y [[F _]|[_ ->]]; [discriminate F|lia].
Qed.

(** When the second IDE controller is full, too, there is no address for a third. *)
Definition more : image := mkImage (L "/in") (L "more.vmdk") 3000 1073741824.
Definition third : image := mkImage (L "/in") (L "third.vmdk") 3000 1073741824.
Definition m3b : vmd := model (add m3 more "harddisk").
Lemma step3b : exists k, add m3 more "harddisk" = Ok (m3b, k). Proof. eexists. vm_compute. reflexivity. Qed.
Lemma history3b : managed env0 base m3b.
Proof. destruct step3b as [k S]. refine (add_step base m3 more "harddisk" m3b k history3 _ _ S); vm_compute; reflexivity. Qed.
Lemma shown_is : forall m k i n v, ids_ok (e_ver env0) (m_hw m) -> In (k, i) (m_hw m) -> ~ text_property (e_ver env0) n -> shown i n = Some v -> only_value (i_props i) n v.
Proof.
  intros m k i n v Hi Hin T O. destruct (value_of_only env0 m k i n Hi Hin T) as (o & Eo & Ho). unfold shown in O.
  unfold value_of in *. rewrite (proj2 (hitem_In _ k i (proj1 Hi)) Hin) in Eo. unfold hitem in O. cbn [m_hw hget dget str_eqb rbind] in *.
  rewrite Eo in O. now apply Ho.
Qed.
Lemma address_used : forall m ct t b, ids_ok (e_ver env0) (m_hw m) -> dget str_eqb ct RES_MAP = Some t ->
  existsb (fun ki => opt_value_eqb (shown (snd ki) RESOURCE_TYPE) (Some (VStr t)) && opt_value_eqb (shown (snd ki) ADDRESS) (Some (VStr (zdec b)))) (m_hw m) = true ->
  controller_at (m_hw m) ct b.
Proof.
  intros m ct t b Hi Ht H. apply existsb_exists in H as ([k i] & Hin & H). cbn [snd] in H. apply andb_true_iff in H as [H1 H2].
  exists t, k, i. split; [exact Ht|]. split; [exact Hin|].
  destruct (shown i RESOURCE_TYPE) as [x|] eqn:E1; [|discriminate H1]. destruct (shown i ADDRESS) as [z|] eqn:E2; [|discriminate H2].
  cbn in H1, H2. apply value_eqb_eq in H1, H2. subst x z.
  split; [exact (shown_is m k i _ _ Hi Hin (RT_plain _) E1)|exact (shown_is m k i _ _ Hi Hin (ADDRESS_not_text env0) E2)].
Qed.
Example C78_add_disk_no_controller_example : orderly env0 m3b /\ attached env0 m3b /\ sortable m3b /\
  (forall f, ~ meant V1 m3b (Some (im_name third)) (Some (im_name third)) f) /\
  (forall k i, In (k, i) (m_hw m3b) -> is_a (L "ide") i -> full (m_hw m3b) (L "ide") k) /\ yes (AddController (L "ide")) = true /\
  last_controller (L "ide") 1 /\ (forall b, (0 <= b <= 1)%Z -> controller_at (m_hw m3b) (L "ide") b) /\
  how_disk (add_disk_worker yes env0 100 ide m3b third (L "harddisk") None None None None None None) = Some EValueTooHigh.
Proof.
  assert (O : orderly env0 m3b) by exact (managed_orderly _ _ _ base_orderly history3b). assert (Hi : ids_ok (e_ver env0) (m_hw m3b)) by exact (o_ids _ _ O).
  split; [exact O|]. split; [apply attached_ok; [exact O|vm_compute; reflexivity]|]. split; [eexists; vm_compute; reflexivity|].
  split; [apply not_there; vm_compute; reflexivity|]. split; [apply (no_room m3b O); vm_compute; reflexivity|]. split; [reflexivity|].
  split; [right; split; reflexivity|]. split; [|vm_compute; reflexivity].
  intros b Hb. assert (D : b = 0%Z \/ b = 1%Z) by lia. destruct D as [-> | ->]; apply (address_used m3b (L "ide") (L "5")); try exact Hi; vm_compute; reflexivity.
Qed.

(** In the package with one disk there is no SCSI controller 1. *)
Example C78_add_disk_at_new_example :
  (forall k i, In (k, i) (m_hw m1) -> present env0 i None -> is_a (L "scsi") i -> ~ only_value (i_props i) ADDRESS (VStr (L "1"))) /\
  how_disk (add_disk_worker yes env0 100 ide m1 data (L "harddisk") None (Some (L "scsi")) None (Some (L "1:3")) None None) = None /\
  how_disk (add_disk_worker no env0 100 ide m1 data (L "harddisk") None (Some (L "scsi")) None (Some (L "1:3")) None None) = Some ESystemExit /\
  how_disk (add_disk_worker yes env0 100 ide m1 data (L "harddisk") None (Some (L "scsi")) None (Some (L "4:3")) None None) = Some EValueTooHigh.
Proof.
  assert (O : orderly env0 m1) by exact (managed_orderly _ _ _ base_orderly history1). assert (Hi : ids_ok (e_ver env0) (m_hw m1)) by exact (o_ids _ _ O).
  split; [|vm_compute; repeat split]. intros k i Hin _ (t & Et & Ht) Ha.
  assert (F : ~ controller_at (m_hw m1) (L "scsi") 1) by (apply (address_free m1 (L "scsi") (L "6") 1 Hi); vm_compute; reflexivity).
  apply F. exists t, k, i. split; [exact Et|]. split; [exact Hin|]. split; [exact Ht|]. exact Ha.
Qed.
