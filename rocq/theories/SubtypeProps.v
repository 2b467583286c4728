(** The subtype of the controllers that add-disk adds or uses (C75). *)
From Coq Require Import List Ascii Bool ZArith String.
Import ListNotations.
From Verif Require Import PyBase PyBaseProofs PyDict XmlModel NamesModel ItemModel ItemSpec HardwareModel HardwareSpec HardwareProofs CountSpec FindSpec NetworkModel DriveModel DriveSpec ItemProps HardwareProps CountProps FindProps DriveProps SubtypeSpec.
From Verif Require SubtypeProofs.
Local Open Scope nat_scope.

Section AddDisk.
Variables (agree : prompt -> bool) (E : env) (fuel : nat) (guess : str -> str) (m : vmd) (im : image) (dt : str) (file_id controller subtype address diskname desc : option str) (m' : vmd) (k : str).
(** the kind of controller that is asked for *)
Let ct : str := match controller with Some c => c | None => guess dt end.

(** add-disk uses or adds one controller, on which a new drive hangs; the other devices are as
    before.  If a subtype is given, this controller has it, whatever it had before.  If none is
    given, a controller that was there is as before in every respect; a new one has the subtype that
    those of its kind share, and none if they share none. *)
Theorem C75_subtype : orderly E m -> add_disk_worker agree E fuel guess m im dt file_id controller subtype address diskname desc = Ok (m', k) ->
  exists ck ci, In (ck, ci) (m_hw m') /\
  (~ taken (m_hw m) k -> ck <> k /\ forall i, In (k, i) (m_hw m') -> only_value (i_props i) PARENT (VStr ck)) /\
  (forall k' j, k' <> k -> k' <> ck -> (In (k', j) (m_hw m') <-> In (k', j) (m_hw m))) /\
  (ck <> k ->
   match subtype with
   | Some s => s <> [] -> only_value (i_props ci) RESOURCE_SUB_TYPE (VTuple (split_on " "%char s))
   | None => In (ck, ci) (m_hw m) \/ (~ taken (m_hw m) ck /\
      exists ks, are_wanted E (m_hw m) (Some ct) [] [] ks /\
        (forall l, l <> [] -> share (m_hw m) ks (VTuple l) -> only_value (i_props ci) RESOURCE_SUB_TYPE (VTuple l)) /\
        ((forall x, ~ share (m_hw m) ks x) -> forall q w, ~ own (i_props ci) RESOURCE_SUB_TYPE q w))
   end).
Proof. intros O R. exact (SubtypeProofs.worker_subtype agree E fuel guess m im dt file_id controller subtype address diskname desc m' k O R). Qed.

(** So if all controllers of the kind have the same subtype, a new one has it, too. *)
Theorem C75_all_same : forall l, orderly E m -> add_disk_worker agree E fuel guess m im dt file_id controller None address diskname desc = Ok (m', k) ->
  l <> [] -> (exists k0 i0, In (k0, i0) (m_hw m) /\ is_a ct i0) ->
  (forall k0 i0, In (k0, i0) (m_hw m) -> is_a ct i0 -> only_value (i_props i0) RESOURCE_SUB_TYPE (VTuple l)) ->
  forall ck ci, In (ck, ci) (m_hw m') -> ck <> k -> ~ taken (m_hw m) ck -> only_value (i_props ci) RESOURCE_SUB_TYPE (VTuple l).
Proof. intros l O R. exact (SubtypeProofs.all_same agree E fuel guess m im dt file_id controller address diskname desc m' k O R l). Qed.

(** If two have different ones, a new one has none. *)
Theorem C75_differ : orderly E m -> add_disk_worker agree E fuel guess m im dt file_id controller None address diskname desc = Ok (m', k) ->
  forall k1 i1 k2 i2 x y, In (k1, i1) (m_hw m) -> In (k2, i2) (m_hw m) -> is_a ct i1 -> is_a ct i2 ->
  only_value (i_props i1) RESOURCE_SUB_TYPE x -> only_value (i_props i2) RESOURCE_SUB_TYPE y -> x <> y ->
  forall ck ci, In (ck, ci) (m_hw m') -> ck <> k -> ~ taken (m_hw m) ck -> forall q w, ~ own (i_props ci) RESOURCE_SUB_TYPE q w.
Proof. intros O R. exact (SubtypeProofs.differ agree E fuel guess m im dt file_id controller address diskname desc m' k O R). Qed.
End AddDisk.

(** ** Examples: SCSI controllers with and without a subtype *)
Definition scsi_item (id a sub : string) : elem :=
  an_item [] ([rasd "Address" a; rasd "ElementName" "Controller"; rasd "InstanceID" id] ++ match L sub with [] => [] | _ => [rasd "ResourceSubType" sub] end ++ [rasd "ResourceType" "6"]).
Definition st_hw (a b : string) : hw := hw_of [cpu_item; scsi_item "2" "0" a; scsi_item "3" "1" b].
Definition st_vm (a b : string) : vmd := mkVmd (m_refs base) None (st_hw a b) [].
Definition st_add (a b : string) (address : string) (subtype : option string) : result (vmd * str) :=
  add_disk_worker yes env0 100 ide (st_vm a b) vmdk (L "harddisk") None (Some (L "scsi")) (option_map L subtype) (Some (L address)) None None.
Definition st_subtypes (r : result (vmd * str)) : list (str * option (result (option value))) :=
  match r with Ok (m, _) => map (fun k => (k, shown (m_hw m) k RESOURCE_SUB_TYPE None)) (map fst (m_hw m)) | Err _ => [] end.
Definition tup (l : list string) : option (result (option value)) := Some (Ok (Some (VTuple (map L l)))).
Definition no_sub : option (result (option value)) := Some (Ok None).
Lemma st_orderly : forall a b, In (a, b) [("virtio", "virtio"); ("virtio", "lsilogic"); ("", "virtio"); ("virtio", "")]%string -> orderly env0 (st_vm a b).
Proof.
  intros a b H. assert (R : hw_reachable V1 (st_hw a b)).
  { unfold st_hw. match goal with |- hw_reachable _ (hw_of ?l) => apply (hw_of_reachable l) end. repeat destruct H as [H|H]; try contradiction; injection H as <- <-; eexists; vm_compute; reflexivity. }
  apply (empty_orderly (st_hw a b) R); repeat destruct H as [H|H]; try contradiction; injection H as <- <-; vm_compute; reflexivity.
Qed.

Example C75_example :
  orderly env0 (st_vm "virtio" "virtio") /\ orderly env0 (st_vm "virtio" "lsilogic") /\
  st_subtypes (st_add "virtio" "virtio" "2:0" None) = [(L "1", no_sub); (L "2", tup ["virtio"]); (L "3", tup ["virtio"]); (L "4", tup ["virtio"]); (L "5", no_sub)]%string /\
  st_subtypes (st_add "virtio" "lsilogic" "2:0" None) = [(L "1", no_sub); (L "2", tup ["virtio"]); (L "3", tup ["lsilogic"]); (L "4", no_sub); (L "5", no_sub)]%string /\
  st_subtypes (st_add "virtio" "lsilogic" "2:0" (Some "a b"))%string = [(L "1", no_sub); (L "2", tup ["virtio"]); (L "3", tup ["lsilogic"]); (L "4", tup ["a"; "b"]); (L "5", no_sub)]%string /\
  st_subtypes (st_add "virtio" "lsilogic" "1:0" (Some "a b"))%string = [(L "1", no_sub); (L "2", tup ["virtio"]); (L "3", tup ["a"; "b"]); (L "4", no_sub)]%string.
Proof. split; [apply st_orderly; now left|]. split; [apply st_orderly; right; now left|]. vm_compute. repeat split. Qed.

(** The documentation says that there is no common subtype "if multiple such devices exist and they
    do not all have the same sub-type".  But it depends on the order: with one controller without a
    subtype and one with it, the new one has the subtype if the one without comes first, and has
    none if it comes last. *)
Theorem C75_common_refuted : orderly env0 (st_vm "" "virtio") /\ orderly env0 (st_vm "virtio" "") /\
  st_subtypes (st_add "" "virtio" "2:0" None) = [(L "1", no_sub); (L "2", no_sub); (L "3", tup ["virtio"]); (L "4", tup ["virtio"]); (L "5", no_sub)]%string /\
  st_subtypes (st_add "virtio" "" "2:0" None) = [(L "1", no_sub); (L "2", tup ["virtio"]); (L "3", no_sub); (L "4", no_sub); (L "5", no_sub)]%string.
Proof. split; [apply st_orderly; right; right; now left|]. split; [apply st_orderly; right; right; right; now left|]. vm_compute. repeat split. Qed.

Print Assumptions C75_subtype.
Print Assumptions C75_all_same.
Print Assumptions C75_differ.
Print Assumptions C75_common_refuted.

(** ** The name of a new drive *)
(** The name that is given; without one a name by the kind of drive, and there are only two kinds. *)
Theorem C75_drive_name : forall E m dt address name ctrl m' k nm, create_disk_device E m dt address name ctrl = Ok (m', k, nm) ->
  match name with
  | Some n => nm = n
  | None => (dt = L "cdrom" /\ nm = L "CD-ROM Drive") \/ (dt = L "harddisk" /\ nm = L "Hard Disk Drive")
  end.
Proof. exact SubtypeProofs.drive_name. Qed.
Print Assumptions C75_drive_name.
Definition st_names (dt : string) (name : option string) : option (result (option value)) :=
  match add_disk_worker yes env0 100 ide (st_vm "virtio" "virtio") vmdk (L dt) None (Some (L "scsi")) None (Some (L "0:3")) (option_map L name) None with
  | Ok (m, k) => shown (m_hw m) k (ELEMENT_NAME V1) None
  | Err _ => None
  end.
Example C75_drive_name_example :
  st_names "harddisk" None = Some (Ok (Some (VStr (L "Hard Disk Drive")))) /\
  st_names "cdrom" None = Some (Ok (Some (VStr (L "CD-ROM Drive")))) /\
  st_names "cdrom" (Some "My drive"%string) = Some (Ok (Some (VStr (L "My drive")))).
Proof. vm_compute. repeat split. Qed.

(** ** The name of a new controller *)
(** The kind of controller in capital letters, and the word Controller, in every profile. *)
Theorem C75_controller_name : forall E m ct sub address m' k, kept (e_ver E) (m_hw m) ->
  add_controller_device E m ct sub address None = Ok (m', k) ->
  exists i up, m_hw m' = m_hw m ++ [(k, i)] /\ in_capitals ct up /\
    only_value (i_props i) (ELEMENT_NAME (e_ver E)) (VStr (up ++ L " Controller")).
Proof. exact SubtypeProofs.controller_name. Qed.
Print Assumptions C75_controller_name.
Definition ctrl_name (ct : string) : option (result (option value)) :=
  match add_controller_device env0 (st_vm "virtio" "virtio") (L ct) None None None with
  | Ok (m, k) => shown (m_hw m) k (ELEMENT_NAME V1) None
  | Err _ => None
  end.
Example C75_controller_name_example :
  kept V1 (m_hw (st_vm "virtio" "virtio")) /\
  ctrl_name "scsi" = Some (Ok (Some (VStr (L "SCSI Controller")))) /\
  ctrl_name "ide" = Some (Ok (Some (VStr (L "IDE Controller")))) /\
  ctrl_name "sata" = Some (Ok (Some (VStr (L "SATA Controller")))).
Proof. split; [apply (st_orderly "virtio" "virtio"); now left|]. vm_compute. repeat split. Qed.
