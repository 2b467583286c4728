(** C60: the list of files and disks that [cot info] prints. *)
From Coq Require Import List Ascii ZArith QArith Bool Lia.
Import ListNotations.
From Verif Require Import PyBase PyDict NamesModel XmlModel ItemModel ItemSpec ItemProps HardwareModel HardwareSpec CountSpec FindSpec PrettyModel PrettyLenProofs
  NetworkModel DriveModel DriveSpec WrapModel InfoModel InfoSpec InfoFileSpec InfoFileProofs.
From Verif Require HardwareProps CountProps RawProofs.
Local Open Scope nat_scope.

(** Every File has one row, in the order of the descriptor, with its name, its size, and, if
    it has a Disk or a drive, the capacity and the place of the drive; then every Disk that is
    not that of a File has a row.  Without Files and Disks there is no list at all. *)
Theorem C60_listing : forall E pretty m, hw_reachable (e_ver E) (m_hw (iv_vmd m)) ->
  forall width verb o, info_files_disks E pretty m width verb = Ok o ->
  let d := iv_vmd m in let v := e_ver E in
  match o with
  | None => files v d = [] /\ disks v d = []
  | Some text => (files v d <> [] \/ disks v d <> []) /\
      exists w names fblocks dblocks,
        map (fun f => get_attr f (FILE_HREF v)) (files v d) = map Some names
        /\ Z.of_nat w = (Z.max 18 (Z.min (Z.of_nat (longest names)) (width - 43)) + 2)%Z
        /\ text = join [NL] (row_of [to_left w (L "Files and Disks:"); L "File Size"; L " Capacity"; L "Device"]
                    :: row_of [to_left w []; L "---------"; L "---------"; L "--------------------"] :: concat fblocks ++ concat dblocks)
        /\ Forall2 (fun f block => exists row disk, file_shown E pretty d w f row disk /\
             block = row :: (if is_verbose verb
                    then (L "    File ID: " ++ name_or_none (get_attr f (FILE_ID v)))
                         :: match disk with Some [] | None => [] | Some s => [L "    Disk ID: " ++ s] end
                    else [])) (files v d) fblocks
        /\ Forall2 (disk_shown E d w) (disks v d) dblocks
  end.
Proof. intros E pretty m R width verb o H. exact (files_disks_spec E pretty m R width verb o H). Qed.
Print Assumptions C60_listing.

(** [longest] is the length of the longest name. *)
Theorem C60_longest : forall names, (forall s, In s names -> length s <= longest names) /\
  (names <> [] -> exists s, In s names /\ length s = longest names).
Proof.
  intros names. split; [apply InfoProfileProofs.longest_ge | ]. intros N. destruct (InfoProfileProofs.longest_some names) as [Z | H]; [ | exact H].
  destruct names as [ | s names]; [congruence | ]. exists s. split; [now left | ]. cbn [longest fold_right] in *. fold (longest names) in *. lia.
Qed.
Print Assumptions C60_longest.

(** So on a terminal of 61 columns or more every name of at most [width - 43] characters is
    shown in full, and no row is longer than the width, if the sizes are not. *)
Theorem C60_full_name : forall width names w name cell,
  Z.of_nat w = (Z.max 18 (Z.min (Z.of_nat (longest names)) (width - 43)) + 2)%Z ->
  In name names -> (Z.of_nat (length name) <= Z.max 18 (width - 43))%Z -> name_cell w name cell -> cell = L "  " ++ name.
Proof.
  intros width names w name cell Hw Hin Hl [[_ H] | [H _]]; [exact H | exfalso].
  rewrite app_length in H. change (length (L "  ")) with 2 in H. pose proof (InfoProfileProofs.longest_ge names name Hin). lia.
Qed.
Print Assumptions C60_full_name.

Lemma left_length : forall w s, length s <= w -> length (to_left w s) = w.
Proof. intros w s H. unfold to_left. rewrite app_length, repeat_length. unfold str in *. lia. Qed.
Lemma right_length : forall w s, length s <= w -> length (to_right w s) = w.
Proof. intros w s H. unfold to_right. rewrite app_length, repeat_length. unfold str in *. lia. Qed.
Lemma cell_fits : forall w name c, name_cell w name c -> length c <= w.
Proof. intros w name c [[H ->] | (_ & s & r & _ & _ & H)]; [exact H | lia]. Qed.
Lemma human_fits : forall c t, (0 <= c <= 2 ^ 53)%Z -> human c t -> length t <= 9.
Proof.
  intros c t Hc H. unfold human in H. rewrite RawProofs.round53_small in H by lia. apply (pretty_length (inject_Z c) 0 t); [ | exact H].
  change 0%Q with (inject_Z 0). rewrite <- Zle_Qle. lia.
Qed.
Lemma device_fits : forall s : str, length (firstn 20 s) <= 20.
Proof. intros s. rewrite firstn_length. lia. Qed.
Lemma four_cells : forall a b c d : str, length (row_of [a; b; c; d]) = length a + length b + length c + length d + 3.
Proof. intros. unfold row_of. cbn [join]. rewrite !app_length. change (length (L " ")) with 1. unfold str in *. lia. Qed.
Lemma two_cells : forall a b : str, length (row_of [a; b]) = length a + length b + 1.
Proof. intros. unfold row_of. cbn [join]. rewrite !app_length. change (length (L " ")) with 1. unfold str in *. lia. Qed.

Theorem C60_width : forall E pretty d width names w f row disk,
  Z.of_nat w = (Z.max 18 (Z.min (Z.of_nat (longest names)) (width - 43)) + 2)%Z -> (61 <= width)%Z ->
  (forall s t, pretty s = Ok t -> length t <= 9) ->
  (forall x c, In x (disks (e_ver E) d) -> capacity (e_ver E) x c -> (0 <= c <= 2 ^ 53)%Z) ->
  file_shown E pretty d w f row disk -> (Z.of_nat (length row) <= width)%Z.
Proof.
  intros E pretty d width names w f row disk Hw Hwidth Hp Hc H.
  assert (S : forall t, size_text pretty (e_ver E) f t -> length t <= 9).
  { intros t T. unfold size_text in T. destruct (get_attr f (FILE_SIZE (e_ver E))) as [s | ]; [exact (Hp s t T) | subst t; cbn; lia]. }
  assert (W : (Z.of_nat w + 41 <= width)%Z) by lia.
  destruct H as [x id did name cell size c cap dev H1 H2 H3 H4 H5 H6 H7 H8 H9 H10 H11 | id name cell size dev H1 H2 H3 H4 H5 H6 H7 | id name cell size H1 H2 H3 H4 H5 H6].
  - rewrite four_cells, left_length by (eapply cell_fits; eassumption). rewrite !right_length; [ | eapply human_fits; [exact (Hc x c H5 H9) | exact H10] | now apply S].
    pose proof (device_fits dev). lia.
  - rewrite four_cells, left_length by (eapply cell_fits; eassumption). rewrite !right_length; [ | cbn; lia | now apply S].
    pose proof (device_fits dev). lia.
  - rewrite two_cells, left_length by (eapply cell_fits; eassumption). rewrite right_length by now apply S. lia.
Qed.
Print Assumptions C60_width.

Theorem C60_width_disks : forall E d width names w x block,
  Z.of_nat w = (Z.max 18 (Z.min (Z.of_nat (longest names)) (width - 43)) + 2)%Z -> (61 <= width)%Z ->
  (forall c, capacity (e_ver E) x c -> (0 <= c <= 2 ^ 53)%Z) ->
  disk_shown E d w x block -> forall row, In row block -> (Z.of_nat (length row) <= width)%Z.
Proof.
  intros E d width names w x block Hw Hwidth Hc H row Hr.
  destruct H as [f H1 H2 | did c cap dev H1 H2 H3 H4 H5]; [destruct Hr | ]. destruct Hr as [<- | []].
  rewrite four_cells, left_length by (change (length (L "  (disk placeholder)")) with 20; lia).
  rewrite !right_length; [ | exact (human_fits c cap (Hc c H3) H4) | cbn; lia]. pose proof (device_fits dev). lia.
Qed.
Print Assumptions C60_width_disks.

Import HardwareProps.
(** A package with a disk, a CD-ROM, a loose file and an empty disk. *)
Definition bytes_text (s : str) : result str := Ok (s ++ L " B").
Definition file0 (id href size : string) : elem :=
  Elem (FILE V1) [(FILE_HREF V1, L href); (FILE_ID V1, L id); (FILE_SIZE V1, L size)] None None [].
Definition disk1 (id c : string) (r : list (str * str)) : elem :=
  Elem (DISK V1) ([(DISK_CAPACITY V1, L c); (DISK_CAP_UNITS V1, L "byte * 2^30"); (DISK_ID V1, L id)] ++ r) None None [].
Definition controller_n (addr : string) : elem :=
  an_item [] [rasd "Address" addr; rasd "ElementName" "C"; rasd "InstanceID" "1"; rasd "ResourceType" "6"].
Definition drive_n (id slot t host : string) : elem :=
  an_item [] [rasd "AddressOnParent" slot; rasd "ElementName" "D"; rasd "HostResource" host; rasd "InstanceID" id; rasd "Parent" "1"; rasd "ResourceType" t].
Definition package (addr slot : string) : info_vm :=
  mkInfoVm (L "vm.ovf") (Elem [] [] None None []) (mkNet (Elem [] [] None None []) false) None
    (mkVmd (Elem (OVF_NS V1 ++ L "References") [] None None
              [file0 "f1" "a-rather-long-name-of-a-disk-image.vmdk" "1000"; file0 "f2" "c.iso" "2000"; file0 "f3" "notes.txt" "40"])
           (Some (Elem [] [] None None [disk1 "d1" "4" [(DISK_FILE_REF V1, L "f1")]; disk1 "d2" "8" []]))
           (CountProps.hw_of [controller_n addr; drive_n "2" slot "17" "ovf:/disk/d1"; drive_n "3" "1" "15" "ovf:/file/f2"; drive_n "4" "2" "17" "ovf:/disk/d2"]) []).
Lemma package_reachable : forall addr slot, addr = "0"%string \/ addr = "10"%string -> slot = "0"%string \/ slot = "12"%string \/ slot = "13"%string ->
  hw_reachable V1 (m_hw (iv_vmd (package addr slot))).
Proof.
  intros addr slot A B. unfold package. cbn [iv_vmd m_hw]. match goal with |- hw_reachable _ (CountProps.hw_of ?l) => apply (CountProps.hw_of_reachable l) end.
  destruct A as [-> | ->], B as [-> | [-> | ->]]; eexists; vm_compute; reflexivity.
Qed.
Example C60_example : info_files_disks env0 bytes_text (package "0" "0") 70 Normal =
  Ok (Some (join [NL]
   [L "Files and Disks:              File Size  Capacity Device";
    L "                              --------- --------- --------------------";
    L "  a-rather-long-name-of-a-...    1000 B     4 GiB harddisk @ SCSI 0:0";
    L "  c.iso                          2000 B           cdrom @ SCSI 0:1";
    L "  notes.txt                        40 B";
    L "  (disk placeholder)                 --     8 GiB harddisk @ SCSI 0:2"])).
Proof. vm_compute. reflexivity. Qed.
Example C60_example_reachable : hw_reachable V1 (m_hw (iv_vmd (package "0" "0"))).
Proof. apply package_reachable; now left. Qed.
Example C60_width_example : forall x c, In x (disks V1 (iv_vmd (package "0" "0"))) -> capacity V1 x c -> (0 <= c <= 2 ^ 53)%Z.
Proof.
  intros x c Hx (s & n & H1 & H2 & H3). change (disks V1 (iv_vmd (package "0" "0"))) with [disk1 "d1" "4" [(DISK_FILE_REF V1, L "f1")]; disk1 "d2" "8" []] in Hx.
  destruct Hx as [<- | [<- | []]]; vm_compute in H1; injection H1 as <-; vm_compute in H2; injection H2 as <-; vm_compute in H3; injection H3 as <-; split; discriminate.
Qed.

(** Two drives at different addresses can look the same: the device is cut off after 20
    characters. *)
Theorem C60_device_refuted : exists E pretty m m' text, hw_reachable (e_ver E) (m_hw (iv_vmd m)) /\ hw_reachable (e_ver E) (m_hw (iv_vmd m')) /\
  info_files_disks E pretty m 200 Verbose = Ok (Some text) /\ info_files_disks E pretty m' 200 Verbose = Ok (Some text) /\
  device_info_str E m (Some (L "2")) = Ok (L "harddisk @ SCSI 10:12") /\ device_info_str E m' (Some (L "2")) = Ok (L "harddisk @ SCSI 10:13").
Proof.
  exists env0, bytes_text, (package "10" "12"), (package "10" "13"). eexists.
  split; [apply package_reachable; auto | ]. split; [apply package_reachable; auto | ]. split; [vm_compute; reflexivity | ].
  split; [vm_compute; reflexivity | ]. split; vm_compute; reflexivity.
Qed.
Print Assumptions C60_device_refuted.

(** A File without an identifier makes the whole command fail. *)
Theorem C60_no_id_refuted : exists E pretty m, hw_reachable (e_ver E) (m_hw (iv_vmd m)) /\ info_files_disks E pretty m 79 Normal = Err ETypeError.
Proof.
  exists env0, bytes_text, (mkInfoVm [] (Elem [] [] None None []) (mkNet (Elem [] [] None None []) false) None
    (mkVmd (Elem [] [] None None [Elem (FILE V1) [(FILE_HREF V1, L "a")] None None []]) None [] [])).
  split; [exact (H_read V1 env0 (Elem [] [] None None []) [] eq_refl eq_refl) | vm_compute; reflexivity].
Qed.
Print Assumptions C60_no_id_refuted.
