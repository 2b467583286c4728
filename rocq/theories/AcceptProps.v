(** C78: which add-file and remove-file commands succeed. *)
From Coq Require Import Lia ZArith.
From Verif Require Import PyBase PyBaseProofs PyDict ValidationModel XmlModel NamesModel ItemModel ItemSpec ItemReachProofs
  HardwareModel HardwareSpec HardwareProofs HardwareIdProofs CountSpec FindSpec FindProofs SlotProofs NetworkModel DriveModel DriveSpec OrderlyProofs
  ItemProps HardwareProps CountProps FindProps DriveProps AcceptSpec AcceptProofs.
Local Open Scope nat_scope.

(** Adding a file to a package that is in order succeeds exactly if the name and the
    identifier do not lead to different Files, and the user agrees to the replacement of the
    File that is there, if any.  These are the only reasons to fail. *)
Theorem C78_add_file : forall E m agree im file_id, orderly E m -> attached E m -> sortable m ->
  match add_file_run agree E m im file_id with
  | Ok _ => (forall f g, meant (e_ver E) m (Some (im_name im)) file_id f -> meant (e_ver E) m (Some (im_name im)) file_id g -> f = g) /\
            (forall f, meant (e_ver E) m (Some (im_name im)) file_id f ->
               agree (ReplaceFile (get_attr f (FILE_HREF (e_ver E))) (im_name im)) = true)
  | Err EValueMismatch => exists f g, meant (e_ver E) m (Some (im_name im)) file_id f /\ meant (e_ver E) m (Some (im_name im)) file_id g /\ f <> g
  | Err ESystemExit => exists f, meant (e_ver E) m (Some (im_name im)) file_id f /\
      agree (ReplaceFile (get_attr f (FILE_HREF (e_ver E))) (im_name im)) = false
  | Err _ => False
  end.
Proof. intros E m agree im file_id O A S. exact (add_file_accepted E m O A S agree im file_id). Qed.
Print Assumptions C78_add_file.

(** In particular, a file whose name and identifier are not there yet can be added, without
    any question. *)
Theorem C78_add_new_file : forall E m agree im file_id, orderly E m -> attached E m -> sortable m ->
  (forall f, ~ meant (e_ver E) m (Some (im_name im)) file_id f) -> exists m', add_file_run agree E m im file_id = Ok m'.
Proof.
  intros E m agree im file_id O A S N. pose proof (C78_add_file E m agree im file_id O A S) as H.
  destruct (add_file_run agree E m im file_id) as [m'|e]; [eauto|]. exfalso.
  destruct e; try exact H; [destruct H as (f & g & F & _)|destruct H as (f & F & _)]; exact (N f F).
Qed.
Print Assumptions C78_add_new_file.

(** Removing a file succeeds exactly if there is a File that is as the user says, by name,
    identifier or both, and the user agrees.  Otherwise the error tells what is wrong. *)
Theorem C78_remove_file : forall E m agree path id, orderly E m -> attached E m -> sortable m -> only_drives m ->
  match remove_file_run agree E m path id with
  | Ok _ => exists f h i, fits (e_ver E) m path id f /\ get_attr f (FILE_HREF (e_ver E)) = Some h /\ get_attr f (FILE_ID (e_ver E)) = Some i /\
              exists d k, agree (RemoveFile h i d k) = true
  | Err EInvalidInput => forall f, ~ meant (e_ver E) m path id f
  | Err EValueMismatch => (exists f, meant (e_ver E) m path id f) /\ forall f, ~ fits (e_ver E) m path id f
  | Err ESystemExit => exists f h i, fits (e_ver E) m path id f /\ get_attr f (FILE_HREF (e_ver E)) = Some h /\ get_attr f (FILE_ID (e_ver E)) = Some i /\
              exists d k, agree (RemoveFile h i d k) = false
  | Err _ => False
  end.
Proof. intros E m agree path id O A S D. exact (remove_file_accepted E m O A S agree D path id). Qed.
Print Assumptions C78_remove_file.

(** In particular, with --force every File can be removed, by its name or by its
    identifier. *)
Theorem C78_remove_forced : forall E m f h i, orderly E m -> attached E m -> sortable m -> only_drives m ->
  In f (files (e_ver E) m) -> get_attr f (FILE_HREF (e_ver E)) = Some h -> get_attr f (FILE_ID (e_ver E)) = Some i ->
  forall path id, (path, id) = (Some h, None) \/ (path, id) = (None, Some i) \/ (path, id) = (Some h, Some i) ->
  exists m', remove_file_run (fun _ => true) E m path id = Ok m'.
Proof.
  intros E m f h i O A S D Hf Hh Hi path id G. pose proof (C78_remove_file E m (fun _ => true) path id O A S D) as H.
  assert (F : fits (e_ver E) m path id f).
  { destruct G as [G|[G|G]]; injection G as -> ->; (split; [split; [exact Hf|]|]; [eauto|]); (split; intros s X; [|]); try discriminate X; congruence. }
  destruct (remove_file_run (fun _ => true) E m path id) as [m'|e]; [eauto|]. exfalso.
  destruct e; try exact H.
  - destruct H as [_ H]. exact (H f F).
  - exact (H f (proj1 F)).
  - destruct H as (? & ? & ? & _ & _ & _ & ? & ? & X). discriminate X.
Qed.
Print Assumptions C78_remove_forced.

(** ** Non-vacuity *)
Definition attached_b (m : vmd) : bool :=
  forallb (fun ki => match recs (snd ki) HOST_RESOURCE with
    | [] => true
    | _ => match get_value env0 (i_props (snd ki)) PARENT None with
           | Ok (Some (VStr ck)) => match hitem ck (m_hw m) with Ok ci => has_profile env0 ci None | Err _ => false end
           | _ => false end end) (m_hw m).
Definition drives_b (m : vmd) : bool :=
  forallb (fun ki => match recs (snd ki) HOST_RESOURCE with
    | [] => true
    | _ => match get_value env0 (i_props (snd ki)) RESOURCE_TYPE None with
           | Ok (Some (VStr t)) => str_eqb t (L "15") || str_eqb t (L "17")
           | _ => false end end) (m_hw m).
Lemma attached_ok : forall m, orderly env0 m -> attached_b m = true -> attached env0 m.
Proof.
  intros m O H k i p v Hi Ho. unfold attached_b in H. rewrite forallb_forall in H. specialize (H _ Hi). cbn [snd] in H.
  assert (K : ids_ok (e_ver env0) (m_hw m)) by exact (o_ids _ _ O).
  assert (Hr : In p (recs i HOST_RESOURCE)) by (apply recs_In; now exists v). destruct (recs i HOST_RESOURCE); [destruct Hr|].
  destruct (value_only env0 i PARENT (proj2 (ids_good env0 (m_hw m) k i K Hi)) (PARENT_not_text env0)) as (o & Eo & Ev).
  rewrite Eo in H. destruct o as [[ck|]|]; try discriminate H.
  destruct (hitem ck (m_hw m)) as [ci|] eqn:Ec; [|discriminate H]. apply hitem_In in Ec; [|exact (proj1 K)].
  exists ck, ci. split; [now apply Ev|]. split; [exact Ec|]. apply has_profile_present; [|exact H]. exact (proj2 (ids_good env0 (m_hw m) ck ci K Ec)).
Qed.
Lemma drives_ok : forall m, orderly env0 m -> drives_b m = true -> only_drives m.
Proof.
  intros m O H k i p v Hi Ho. unfold drives_b in H. rewrite forallb_forall in H. specialize (H _ Hi). cbn [snd] in H.
  assert (K : ids_ok (e_ver env0) (m_hw m)) by exact (o_ids _ _ O).
  assert (Hr : In p (recs i HOST_RESOURCE)) by (apply recs_In; now exists v). destruct (recs i HOST_RESOURCE); [destruct Hr|].
  destruct (value_only env0 i RESOURCE_TYPE (proj2 (ids_good env0 (m_hw m) k i K Hi)) (RT_plain _)) as (o & Eo & Ev).
  rewrite Eo in H. destruct o as [[t|]|]; try discriminate H. apply orb_true_iff in H as [H|H]; apply str_eqb_eq in H as ->; [left|right]; now apply Ev.
Qed.

(** A package with two disks, a CD-ROM and a text file is of this kind. *)
Example C78_example : orderly env0 m4 /\ attached env0 m4 /\ sortable m4 /\ only_drives m4.
Proof.
  pose proof (managed_orderly _ _ _ base_orderly history4) as O. split; [exact O|].
  split; [apply attached_ok; [exact O|vm_compute; reflexivity]|]. split; [eexists; vm_compute; reflexivity|].
  apply drives_ok; [exact O|vm_compute; reflexivity].
Qed.
(** All outcomes occur. *)
Definition no (p : prompt) : bool := false.
Definition how (r : result vmd) : option exn := match r with Ok _ => None | Err e => Some e end.
Example C78_outcomes :
  how (add_file_run no env0 m4 readme None) = None /\
  how (add_file_run yes env0 m4 notes None) = None /\
  how (add_file_run no env0 m4 notes None) = Some ESystemExit /\
  how (add_file_run yes env0 m4 notes (Some (L "vm.vmdk"))) = Some EValueMismatch /\
  how (remove_file_run yes env0 m4 (Some (L "vm.vmdk")) None) = None /\
  how (remove_file_run yes env0 m4 None (Some (L "c.iso"))) = None /\
  how (remove_file_run no env0 m4 (Some (L "notes.txt")) None) = Some ESystemExit /\
  how (remove_file_run yes env0 m4 (Some (L "notes.txt")) (Some (L "c.iso"))) = Some EValueMismatch /\
  how (remove_file_run yes env0 m4 (Some (L "notes.txt")) (Some (L "other"))) = Some EValueMismatch /\
  how (remove_file_run yes env0 m4 (Some (L "other")) None) = Some EInvalidInput.
Proof. vm_compute. repeat split. Qed.

(** The condition on the drives is needed: the file of a drive of another type, such as a
    floppy drive, cannot be removed. *)
Definition m_floppy : vmd :=
  match (do i <- hitem (L "5") (m_hw m4); do i' <- set_property env0 i RESOURCE_TYPE (IStr (L "14")) [] true; Ok (hset (L "5") i' (m_hw m4))) with
  | Ok h => with_hw h m4 | Err _ => base end.
Example C78_floppy :
  shown (m_hw m_floppy) (L "5") RESOURCE_TYPE None = Some (Ok (Some (VStr (L "14")))) /\
  m_refs m_floppy = m_refs m4 /\ how (remove_file_run yes env0 m_floppy (Some (L "c.iso")) None) = Some EValueUnsupported.
Proof. vm_compute. repeat split. Qed.
