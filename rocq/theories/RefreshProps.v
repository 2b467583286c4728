(** C61: what a package says about its files is brought up to date when it is written. *)
From Coq Require Import List Ascii ZArith Bool Lia.
Import ListNotations.
From Verif Require Import PyBase PyDict NetworkModel XmlModel NamesModel ItemModel ItemProps HardwareModel UnitsModel UnitsProofs DriveModel DriveSpec InfoSpec
  RefreshModel RefreshSpec RefreshProofs RefreshOkProofs RefreshOrderProofs.
From Verif Require DriveProps.
Local Open Scope nat_scope.

(** After it, the References state the size of every file that is there, and have no File
    whose file is missing; the Disk of a file on the disk of the user states its capacity;
    nothing else has changed. *)
Theorem C61_refreshed : forall E W fuel m m', measured W -> plain_units (e_ver E) m -> NoDup (map fst (m_sources m)) ->
  refresh_files E W fuel m = Ok m' ->
  m_hw m' = m_hw m /\
  m_sources m' = filter (fun nd => w_exists W (fst nd) (snd nd)) (m_sources m) /\
  (etag (m_refs m') = etag (m_refs m) /\ eattrib (m_refs m') = eattrib (m_refs m) /\ etext (m_refs m') = etext (m_refs m) /\ etail (m_refs m') = etail (m_refs m)) /\
  files_refreshed (e_ver E) W m (echildren (m_refs m)) (echildren (m_refs m')) /\
  match m_disks m, m_disks m' with
  | None, None => True
  | Some s, Some s' => Forall2 (disk_refreshed (e_ver E) W m) (echildren s) (echildren s') /\
      etag s' = etag s /\ eattrib s' = eattrib s /\ etext s' = etext s /\ etail s' = etail s
  | _, _ => False
  end.
Proof.
  intros E W fuel m m' G U ND H. pose proof (refresh_state E W fuel m ND G U m' H) as S.
  split; [exact (s_hw _ _ _ _ _ S) | ]. split; [exact (s_src _ _ _ _ _ S) | ]. split; [exact (s_refs _ _ _ _ _ S) | ].
  split; [exact (state_files E W m ND m' S) | ].
  pose proof (s_disks _ _ _ _ _ S) as D. unfold disks_rel in D. destruct (m_disks m) as [s | ], (m_disks m') as [s' | ]; try exact D.
  split; [ | exact (proj2 D)]. eapply Forall2_sub; [ | exact (proj1 D)]. intros x y. apply rel_disk.
Qed.
Print Assumptions C61_refreshed.

(** So every File that is written comes from a file that is there. *)
Theorem C61_sourced : forall E W fuel m m', measured W -> plain_units (e_ver E) m -> NoDup (map fst (m_sources m)) ->
  refresh_files E W fuel m = Ok m' -> forall f, In f (files (e_ver E) m') -> exists h d, get_attr f (FILE_HREF (e_ver E)) = Some h /\ In (h, d) (m_sources m').
Proof. exact refresh_sourced. Qed.
Print Assumptions C61_sourced.

(** It works if files and references are in order and the files and capacities can be read. *)
Theorem C61_works : forall E W fuel m, linked (e_ver E) m -> one_disk (e_ver E) m -> sourced (e_ver E) m ->
  measured W -> plain_units (e_ver E) m ->
  (forall h d, is_there W m h d -> w_check W h d = Ok tt /\ exists z, w_size W h d = Ok z) ->
  (forall x id f h d, In x (disks (e_ver E) m) -> In f (files (e_ver E) m) -> get_attr f (FILE_ID (e_ver E)) = Some id ->
     get_attr x (DISK_FILE_REF (e_ver E)) = Some id -> get_attr f (FILE_HREF (e_ver E)) = Some h -> is_there W m h d -> w_on_disk W h d = true ->
     (exists r, capacity (e_ver E) x r) /\ exists c n, w_capacity W h d = Ok c /\ py_int c = Some n /\ (0 < n)%Z) ->
  100 <= fuel -> exists m', refresh_files E W fuel m = Ok m'.
Proof. intros E W fuel m L O S G U R I F. exact (refresh_ok E W fuel m L O S G U R I F). Qed.
Print Assumptions C61_works.

(** A package in order (see C30) stays so, if no file is missing. *)
Theorem C61_orderly : forall E W fuel m m', measured W -> plain_units (e_ver E) m -> orderly E m ->
  (forall h d, In (h, d) (m_sources m) -> w_exists W h d = true) -> refresh_files E W fuel m = Ok m' -> orderly E m'.
Proof. exact refresh_orderly. Qed.
Print Assumptions C61_orderly.

Import DriveProps.
(** A package of four files, two of them disks; meanwhile one has grown. *)
Definition grown (h d : str) : bool := str_eqb h (L "data.vmdk").
Definition world1 : world := mkWorld (fun _ _ => true) (fun _ _ => Ok tt) (fun h d => Ok (if grown h d then 5000 else 40)%Z) (fun _ _ => true)
  (fun h d => Ok (if grown h d then L "3221225472" else L "1073741824")).
(** Or it is missing. *)
Definition world2 : world := mkWorld (fun h d => negb (grown h d)) (fun _ _ => Ok tt) (fun h d => Ok 40%Z) (fun _ _ => true) (fun h d => Ok (L "1073741824")).
Lemma m4_orderly : orderly env0 m4.
Proof. exact (C30_history env0 base m4 base_orderly history4). Qed.
Lemma world1_measured : measured world1.
Proof.
  intros h d c H. cbn in H. apply InfoProfileProofs.ok_inj in H. subst c. destruct (grown h d); eexists; (split; [vm_compute; reflexivity | lia]).
Qed.
Definition told (m : vmd) : list (option str * option str) * list (option str * option str * option str) :=
  (map (fun f => (get_attr f (FILE_HREF V1), get_attr f (FILE_SIZE V1))) (files V1 m),
   map (fun d => (get_attr d (DISK_FILE_REF V1), get_attr d (DISK_CAPACITY V1), get_attr d (DISK_CAP_UNITS V1))) (disks V1 m)).
Example C61_example : orderly env0 m4 /\ measured world1 /\ plain_units V1 m4 /\
  exists m', refresh_files env0 world1 100 m4 = Ok m' /\
    told m4 = ([(Some (L "vm.vmdk"), Some (L "1000")); (Some (L "c.iso"), Some (L "2000")); (Some (L "data.vmdk"), Some (L "3000")); (Some (L "notes.txt"), Some (L "40"))],
               [(Some (L "vm.vmdk"), Some (L "1"), Some (L "byte * 2^30")); (Some (L "data.vmdk"), Some (L "1"), Some (L "byte * 2^30"))]) /\
    told m' = ([(Some (L "vm.vmdk"), Some (L "40")); (Some (L "c.iso"), Some (L "40")); (Some (L "data.vmdk"), Some (L "5000")); (Some (L "notes.txt"), Some (L "40"))],
               [(Some (L "vm.vmdk"), Some (L "1"), Some (L "byte * 2^30")); (Some (L "data.vmdk"), Some (L "3"), Some (L "byte * 2^30"))]).
Proof.
  split; [exact m4_orderly | ]. split; [exact world1_measured | ]. split; [intros X; discriminate X | ].
  eexists. split; [vm_compute; reflexivity | ]. split; vm_compute; reflexivity.
Qed.
Example C61_works_example : linked V1 m4 /\ one_disk V1 m4 /\ sourced V1 m4 /\
  forall x, In x (disks V1 m4) -> exists r, capacity V1 x r.
Proof.
  destruct m4_orderly as [_ _ H1 _ _ H2 _ H3]. split; [exact H1 | ]. split; [exact H2 | ]. split; [exact H3 | ].
  intros x Hx. assert (A : forall e, In e (disks V1 m4) -> InfoModel.get_capacity_from_disk env0 e = Ok 1073741824%Z).
  { assert (B : forallb (fun e => match InfoModel.get_capacity_from_disk env0 e with Ok z => (z =? 1073741824)%Z | Err _ => false end) (disks V1 m4) = true) by (vm_compute; reflexivity).
    rewrite forallb_forall in B. intros e He. specialize (B e He). destruct (InfoModel.get_capacity_from_disk env0 e); [ | discriminate B]. apply Z.eqb_eq in B. rewrite B. reflexivity. }
  exists 1073741824%Z. apply (InfoProfileProofs.capacity_spec env0). exact (A x Hx).
Qed.

Lemma dangling : forall v m r, existsb (fun d => opt_eqb (get_attr d (DISK_FILE_REF v)) (Some r)) (disks v m) = true ->
  existsb (fun f => opt_eqb (get_attr f (FILE_ID v)) (Some r)) (files v m) = false -> ~ linked v m.
Proof.
  intros v m r H1 H2 L. apply existsb_exists in H1 as (d & Hd & Ed). apply LinkProofs.opt_eqb_eq in Ed.
  destruct (l_disk_files v m L d r Hd Ed) as (f & Hf & Ef). apply Bool.not_true_iff_false in H2. apply H2. apply existsb_exists. exists f.
  split; [exact Hf | now apply LinkProofs.opt_eqb_eq].
Qed.
(** With a missing file the descriptor that is written has a Disk that leads nowhere. *)
Theorem C61_linked_refuted : exists E W fuel m m', measured W /\ plain_units (e_ver E) m /\ orderly E m /\
  refresh_files E W fuel m = Ok m' /\ ~ linked (e_ver E) m'.
Proof.
  exists env0, world2, 100, m4. eexists. split. { intros h d c H. cbn in H. apply InfoProfileProofs.ok_inj in H. subst c. eexists. split; [vm_compute; reflexivity | lia]. }
  split; [intros X; discriminate X | ]. split; [exact m4_orderly | ]. split; [vm_compute; reflexivity | ].
  apply (dangling V1 _ (L "data.vmdk")); vm_compute; reflexivity.
Qed.
Print Assumptions C61_linked_refuted.

(** Two Files of the same name: the package cannot be written. *)
Theorem C61_same_name_refuted : exists E W fuel m, measured W /\ sourced (e_ver E) m /\ plain_units (e_ver E) m /\
  (forall h d, is_there W m h d -> w_check W h d = Ok tt /\ exists z, w_size W h d = Ok z) /\ disks (e_ver E) m = [] /\
  refresh_files E W fuel m = Err ELookupError.
Proof.
  exists env0, world1, 100, (mkVmd (Elem [] [] None None [Elem (FILE V1) [(FILE_HREF V1, L "a")] None None []; Elem (FILE V1) [(FILE_HREF V1, L "a")] None None []]) None [] [(L "a", L "/in")]).
  split; [exact world1_measured | ]. split.
  { split; [repeat constructor; intros [] | ]. intros h. split.
    - intros [d Hd]. apply (PyDictProofs.dget_In str_eqb PyBaseProofs.str_eqb_eq) in Hd. destruct Hd as [Hd | []]. injection Hd as <- _.
      eexists. split; [left; reflexivity | vm_compute; reflexivity].
    - intros (f & [<- | [<- | []]] & H); vm_compute in H; injection H as <-; exists (L "/in"); vm_compute; reflexivity. }
  split; [intros X; discriminate X | ]. split; [intros h d _; split; [reflexivity | now eexists] | ]. split; [reflexivity | vm_compute; reflexivity].
Qed.
Print Assumptions C61_same_name_refuted.

Lemma one_fails : forall E W fuel m n d j z f k sec disk r c e,
  m_sources m = [(n, d)] -> live_sources W [(n, d)] = Ok [(n, d)] ->
  let v := e_ver E in
  let m0 := with_sources [(n, d)] (with_refs (set_children (filter (stays E [(n, d)]) (echildren (m_refs m))) (m_refs m)) m) in
  find_place (m_refs m0) (FILE v) (FILE_HREF v) (Some n) = Ok (Some j) -> w_size W n d = Ok z ->
  let m1 := with_refs (set_children (update_at j (set_attr (FILE_SIZE v) (zdec z)) (echildren (m_refs m0))) (m_refs m0)) m0 in
  child_at (m_refs m1) j = Ok f -> find_disk_from_file_id v m1 (get_attr f (FILE_ID v)) = Ok (Some k) ->
  (if w_on_disk W n d then w_capacity W n d else Err e) = Ok c -> the_disks m1 = Ok sec -> child_at sec k = Ok disk ->
  InfoModel.get_capacity_from_disk E disk = Ok r -> str_eqb (zdec r) c = false -> new_capacity E fuel c = Err e ->
  refresh_files E W fuel m = Err e.
Proof.
  intros E W fuel m n d j z f k sec disk r c e H1 H2 v m0 H3 H4 m1 H5 H6 H7 H8 H9 H10 H11 H12.
  unfold refresh_files. rewrite H1, H2. cbn [rbind fold_result]. fold m0. unfold refresh_one. fold v. rewrite H3. cbn [rbind]. rewrite H4. cbn [rbind]. fold m1.
  rewrite H5. cbn [rbind]. rewrite H6. cbn [rbind]. unfold refresh_capacity. destruct (w_on_disk W n d); [ | discriminate H7]. rewrite H7. cbn [rbind].
  rewrite H8. cbn [rbind]. rewrite H9. cbn [rbind]. rewrite H10. cbn [rbind]. rewrite H11, H12. reflexivity.
Qed.
(** An image of no capacity: writing the package never ends. *)
Theorem C61_empty_image_refuted : exists E W m, measured W /\ orderly E m /\ plain_units (e_ver E) m /\
  (forall h d, In (h, d) (m_sources m) -> w_exists W h d = true /\ w_check W h d = Ok tt /\ exists z, w_size W h d = Ok z) /\
  forall fuel, refresh_files E W fuel m = Err EOutOfFuel.
Proof.
  exists env0, (mkWorld (fun _ _ => true) (fun _ _ => Ok tt) (fun h d => Ok 0%Z) (fun _ _ => true) (fun h d => Ok (L "0"))), m1.
  split. { intros h d c H. cbn in H. apply InfoProfileProofs.ok_inj in H. subst c. exists 0%Z. split; [vm_compute; reflexivity | lia]. }
  split; [exact (C30_history env0 base m1 base_orderly history1) | ]. split; [intros X; discriminate X | ].
  split; [intros h d _; split; [reflexivity | ]; split; [reflexivity | now exists 0%Z] | ].
  intros fuel. assert (Z : new_capacity env0 fuel (L "0") = Err EOutOfFuel).
  { unfold new_capacity. change (e_ver env0) with V1. change (int_or_err (L "0")) with (Ok 0%Z). cbn [rbind capacity_attrs].
    unfold int_bytes_to_programmatic_units. now rewrite zero_loop. }
  eapply one_fails; [ | | | | | | | | | | | exact Z]; vm_compute; reflexivity.
Qed.
Print Assumptions C61_empty_image_refuted.

(** In OVF 0.9 a Disk that states a unit keeps it, although the new capacity is in bytes: for an
    image of 5000 bytes the Disk then says 5000 * 1024. *)
Definition env09 : env := mkEnv V0 (e_profiles env0) (e_re_sub env0) (e_seq_repr env0) (e_tostring env0) (e_fromstring env0).
Definition disk09 : elem := Elem (DISK V0) [(DISK_FILE_REF V0, L "f"); (DISK_CAPACITY V0, L "9"); (DISK_CAP_UNITS V0, L "byte * 2^10")] None None [].
Definition vm09 : vmd := mkVmd (Elem [] [] None None [Elem (FILE V0) [(FILE_ID V0, L "f"); (FILE_HREF V0, L "a.vmdk")] None None []]) (Some (Elem [] [] None None [disk09])) [] [(L "a.vmdk", L "/in")].
Definition world09 : world := mkWorld (fun _ _ => true) (fun _ _ => Ok tt) (fun h d => Ok 40%Z) (fun _ _ => true) (fun h d => Ok (L "5000")).
Theorem C61_old_unit_refuted : exists E W fuel m m' x, measured W /\ NoDup (map fst (m_sources m)) /\ capacity (e_ver E) disk09 9216 /\ disks (e_ver E) m = [disk09] /\
  disk_image (e_ver E) W m disk09 (L "5000") /\ refresh_files E W fuel m = Ok m' /\ disks (e_ver E) m' = [x] /\ capacity (e_ver E) x 5120000.
Proof.
  exists env09, world09, 100, vm09. eexists. eexists. split. { intros h d c H. cbn in H. apply InfoProfileProofs.ok_inj in H. subst c. eexists. split; [vm_compute; reflexivity | lia]. }
  split; [repeat constructor; intros [] | ]. split; [exists (L "9"), 9%Z; repeat split; vm_compute; reflexivity | ]. split; [vm_compute; reflexivity | ].
  split. { exists (Elem (FILE V0) [(FILE_ID V0, L "f"); (FILE_HREF V0, L "a.vmdk")] None None []), (L "f"), (L "a.vmdk"), (L "/in"). split; [vm_compute; now left | ]. repeat split; try (vm_compute; reflexivity). now left. }
  split; [vm_compute; reflexivity | ]. split; [vm_compute; reflexivity | ]. exists (L "5000"), 5000%Z. repeat split; vm_compute; reflexivity.
Qed.
Print Assumptions C61_old_unit_refuted.
