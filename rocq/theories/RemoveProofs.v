(** Proofs about the command remove-file. *)
From Coq Require Import Lia Permutation ZArith.
From Verif Require Import PyBase PyBaseProofs PyDict PyDictProofs ValidationModel ValidationSpec ValidationProofs XmlModel NamesModel
  ItemModel ItemSpec PsetProofs ItemProofs ItemReachProofs ItemEffectProofs HardwareModel HardwareSpec HardwareProofs HardwareIdProofs CountSpec CountItemProofs CountProofs FindSpec FindProofs
  RawModel NetworkModel DriveModel DriveSpec SlotProofs DeviceProofs LinkProofs SearchProofs AddProofs WorkerProofs AddDiskProofs AddressProofs.
Local Open Scope nat_scope.

(** The search finds all Disks of the file. *)
Lemma all_disks : forall v m id o, find_disk_from_file_id v m (Some id) = Ok o ->
  forall d, In d (disks v m) -> get_attr d (DISK_FILE_REF v) = Some id -> exists j, o = Some j /\ disk_at v m j d.
Proof.
  intros v m id o H d Hd Ed. unfold find_disk_from_file_id in H. unfold disks in Hd. destruct (m_disks m) as [sec|] eqn:Es; [|destruct Hd].
  apply tagged_In in Hd as [H1 H2]. destruct o as [j|].
  - apply (find_disk v m sec) in H as [_ U]; [|exact Es]. exists j. split; [reflexivity|].
    apply In_nth_error in H1 as [j' Hj]. assert (A : disk_at v m j' d) by (exists sec; now repeat split). now rewrite (U j' d A Ed) in A.
  - exfalso. revert Ed. apply (find_no_disk v m sec _ _ Es H). unfold disks. rewrite Es. now apply tagged_In.
Qed.
Lemma from_file_disk : forall E m file disk r, from_file_and_disk E m file disk = Ok r -> fst (fst r) = (file, disk).
Proof.
  intros E m file disk r H. unfold from_file_and_disk in H.
  destruct (find_item_from_file E m file) as [d1|]; [|discriminate]. cbn [rbind] in H.
  destruct (find_item_from_disk E m disk) as [d2|]; [|discriminate]. cbn [rbind] in H.
  destruct (check_for_conflict str_eqb [d1; d2]) as [d|]; [|discriminate]. cbn [rbind] in H.
  destruct (find_parent_from_item E m d) as [c|]; [|discriminate]. cbn [rbind] in H.
  destruct d, c; try discriminate H; now injection H as <-.
Qed.
Lemma filename_disks : forall E m o r x j d, linked (e_ver E) m -> search_from_filename E m o = Ok r -> r_file r = Some j -> file_at (e_ver E) m j x ->
  In d (disks (e_ver E) m) -> get_attr d (DISK_FILE_REF (e_ver E)) = get_attr x (FILE_ID (e_ver E)) -> exists j', r_disk r = Some j' /\ disk_at (e_ver E) m j' d.
Proof.
  intros E m o r x j d Hl H Ej Hx Hd Ed. unfold search_from_filename in H.
  destruct (find_place _ _ _ _) as [[f|]|]; cbn [rbind] in H; [|injection H as <-; discriminate|discriminate].
  destruct (attr_at (m_refs m) f (FILE_ID (e_ver E))) as [id|] eqn:Ea; [|discriminate]. cbn [rbind] in H.
  destruct (find_disk_from_file_id _ _ _) as [o'|] eqn:Ef; [|discriminate]. cbn [rbind] in H.
  apply from_file_disk in H. unfold r_file, r_disk in *. rewrite H in *. cbn [fst snd] in *. injection Ej as ->.
  rewrite (attr_file _ _ _ _ _ Hx) in Ea. injection Ea as <-. destruct (proj1 (l_file_ids _ _ Hl) x (file_at_In _ _ _ _ Hx)) as [id Hid]. rewrite Hid in *.
  now apply (all_disks _ _ _ _ Ef).
Qed.
Lemma file_id_disks : forall E m o r x j d, linked (e_ver E) m -> search_from_file_id E m o = Ok r -> r_file r = Some j -> file_at (e_ver E) m j x ->
  In d (disks (e_ver E) m) -> get_attr d (DISK_FILE_REF (e_ver E)) = get_attr x (FILE_ID (e_ver E)) -> exists j', r_disk r = Some j' /\ disk_at (e_ver E) m j' d.
Proof.
  intros E m o r x j d Hl H Ej Hx Hd Ed. unfold search_from_file_id in H. destruct o as [o|]; [|injection H as <-; discriminate].
  destruct (find_place _ _ _ _) as [f|] eqn:Ep; cbn [rbind] in H; [|discriminate].
  destruct (find_disk_from_file_id _ _ _) as [o'|] eqn:Ef; [|discriminate]. cbn [rbind] in H.
  assert (H' : from_file_and_disk E m f o' = Ok r) by (destruct o', f; try discriminate H; exact H). clear H.
  apply from_file_disk in H'. unfold r_file, r_disk in *. rewrite H' in *. cbn [fst snd] in *. subst f.
  apply find_file in Ep as [(x' & Hx' & Ex) _]. rewrite (file_at_fun _ _ _ _ _ Hx Hx') in Ed. apply (all_disks _ _ _ _ Ef); congruence.
Qed.

(** The drive that is found refers to the file. *)
Lemma drive_refers : forall E m j x disk r k, ids_ok (e_ver E) (m_hw m) -> linked (e_ver E) m -> file_at (e_ver E) m j x ->
  (forall d, disk = Some d -> exists y, disk_at (e_ver E) m d y /\ get_attr y (DISK_FILE_REF (e_ver E)) = get_attr x (FILE_ID (e_ver E))) ->
  from_file_and_disk E m (Some j) disk = Ok r -> snd r = Some k -> exists s, drive_ref m k s /\ file_of (e_ver E) m s x.
Proof.
  intros E m j x disk r k Hi Hl Hx Hy H Ek. unfold from_file_and_disk in H.
  destruct (find_item_from_file E m (Some j)) as [d1|] eqn:E1; [|discriminate]. cbn [rbind] in H.
  destruct (find_item_from_disk E m disk) as [d2|] eqn:E2; [|discriminate]. cbn [rbind] in H.
  destruct (check_for_conflict str_eqb [d1; d2]) as [d|] eqn:Ec; [|discriminate]. cbn [rbind] in H.
  destruct (find_parent_from_item E m d) as [c|]; [|discriminate]. cbn [rbind] in H.
  assert (d = Some k) as -> by (destruct d, c; try discriminate H; injection H as <-; exact Ek). clear H.
  destruct (proj1 (l_file_ids _ _ Hl) x (file_at_In _ _ _ _ Hx)) as [id Hid].
  apply (conflict_Some _ _ _ _ str_eqb_eq) in Ec as [[->|[->|[]]] _].
  - cbn [find_item_from_file] in E1. rewrite (attr_file _ _ _ _ _ Hx), Hid in E1. cbn [rbind] in E1. apply by_host in E1 as [A _]; [|exact Hi].
    destruct (A k eq_refl) as (i & s & p & B1 & _ & B2 & B3). exists s. split; [now exists i, p|]. split; [now apply file_at_In in Hx|]. exists id. split; [exact Hid|now left].
  - destruct disk as [dj|]; [|discriminate]. destruct (Hy dj eq_refl) as (y & Yy & Ey). cbn [find_item_from_disk] in E2.
    destruct (proj1 (l_disk_ids _ _ Hl) y (disk_at_In _ _ _ _ Yy)) as [did Hdid].
    pose proof (disk_at_In _ _ _ _ Yy) as Yin. destruct Yy as (sec & Y1 & Y2 & Y3). unfold the_disks, attr_at, child_at in E2. rewrite Y1 in E2. cbn [rbind] in E2.
    rewrite Y2 in E2. cbn [rbind] in E2. rewrite Hdid in E2. apply by_host in E2 as [A _]; [|exact Hi].
    destruct (A k eq_refl) as (i & s & p & B1 & _ & B2 & B3). exists s. split; [now exists i, p|]. split; [now apply file_at_In in Hx|]. exists id. split; [exact Hid|].
    right. exists y. split; [|congruence]. split; [exact Yin|]. now exists did.
Qed.
Lemma filename_drive : forall E m o r j x k, ids_ok (e_ver E) (m_hw m) -> linked (e_ver E) m -> search_from_filename E m o = Ok r ->
  r_file r = Some j -> file_at (e_ver E) m j x -> r_drive r = Some k -> exists s, drive_ref m k s /\ file_of (e_ver E) m s x.
Proof.
  intros E m o r j x k Hi Hl H Ej Hx Ek. unfold search_from_filename in H.
  destruct (find_place _ _ _ _) as [[f|]|]; cbn [rbind] in H; [|injection H as <-; discriminate|discriminate].
  destruct (attr_at (m_refs m) f (FILE_ID (e_ver E))) as [id|] eqn:Ea; [|discriminate]. cbn [rbind] in H.
  destruct (find_disk_from_file_id _ _ _) as [o'|] eqn:Ef; [|discriminate]. cbn [rbind] in H.
  pose proof (from_file_disk _ _ _ _ _ H) as X. unfold r_file in Ej. rewrite X in Ej. injection Ej as ->.
  rewrite (attr_file _ _ _ _ _ Hx) in Ea. injection Ea as <-. destruct (proj1 (l_file_ids _ _ Hl) x (file_at_In _ _ _ _ Hx)) as [id Hid]. rewrite Hid in Ef.
  apply (drive_refers E m j x o' r k Hi Hl Hx); [|exact H|exact Ek]. intros d ->. apply find_disk_file_id in Ef as (y & Y1 & Y2). exists y. split; [exact Y1|congruence].
Qed.
Lemma file_id_drive : forall E m o r j x k, ids_ok (e_ver E) (m_hw m) -> linked (e_ver E) m -> search_from_file_id E m o = Ok r ->
  r_file r = Some j -> file_at (e_ver E) m j x -> r_drive r = Some k -> exists s, drive_ref m k s /\ file_of (e_ver E) m s x.
Proof.
  intros E m o r j x k Hi Hl H Ej Hx Ek. unfold search_from_file_id in H. destruct o as [o|]; [|injection H as <-; discriminate].
  destruct (find_place _ _ _ _) as [f|] eqn:Ep; cbn [rbind] in H; [|discriminate].
  destruct (find_disk_from_file_id _ _ _) as [o'|] eqn:Ef; [|discriminate]. cbn [rbind] in H.
  assert (H' : from_file_and_disk E m f o' = Ok r) by (destruct o', f; try discriminate H; exact H). clear H.
  pose proof (from_file_disk _ _ _ _ _ H') as X. unfold r_file in Ej. rewrite X in Ej. cbn [fst] in Ej. subst f.
  apply find_file in Ep as [(x' & Hx' & Ex) _]. rewrite <- (file_at_fun _ _ _ _ _ Hx Hx') in Ex.
  apply (drive_refers E m j x o' r k Hi Hl Hx); [|exact H'|exact Ek]. intros d ->. apply find_disk_file_id in Ef as (y & Y1 & Y2). exists y. split; [exact Y1|congruence].
Qed.

(** Taking the file from a CD-ROM drive. *)
Lemma unmapped : forall E i i', reachable (e_ver E) i -> set_property E i HOST_RESOURCE (IStr []) [] true = Ok i' ->
  (forall q w, ~ own (i_props i') HOST_RESOURCE q w) /\ i_frozen i' = i_frozen i /\
  (forall n q w, n <> HOST_RESOURCE -> (own (i_props i') n q w <-> own (i_props i) n q w)).
Proof.
  intros E i i' R H. split; [|split].
  - intros q w Hw. apply (set_property_empty E i HOST_RESOURCE (IStr []) [] true i' R (HR_not_text E) eq_refl H) in Hw as [Ho Hn].
    apply Hn. left. now exists w.
  - apply (set_frozen E i HOST_RESOURCE (IStr []) [] true); [now apply reachable_good|exact H].
  - intros n q w Hn. now apply (set_other_rec E i HOST_RESOURCE (IStr []) [] true i').
Qed.

(** What remove_file does to the devices. *)
Definition dropped (E : env) (drive : option str) (h h' : hw) : Prop :=
  ids_ok (e_ver E) h' /\ identified E h' /\
  (forall k j, drive <> Some k -> (In (k, j) h' <-> In (k, j) h)) /\
  (forall k i, drive = Some k -> In (k, i) h ->
     (only_value (i_props i) RESOURCE_TYPE (VStr (L "17")) /\ ~ taken h' k) \/
     (only_value (i_props i) RESOURCE_TYPE (VStr (L "15")) /\ exists i', In (k, i') h' /\
        (forall q w, ~ own (i_props i') HOST_RESOURCE q w) /\ i_frozen i' = i_frozen i /\
        (forall n q w, n <> HOST_RESOURCE -> (own (i_props i') n q w <-> own (i_props i) n q w)))).

Lemma dropped_spec : forall E m drive m', ids_ok (e_ver E) (m_hw m) -> identified E (m_hw m) ->
  (forall k, drive = Some k -> exists i, In (k, i) (m_hw m)) ->
  match drive with
  | None => Ok m
  | Some k =>
      do t <- value_of E m k RESOURCE_TYPE;
      if opt_value_eqb t (Some (VStr (L "15"))) then
        do i <- hitem k (m_hw m);
        do i' <- set_property E i HOST_RESOURCE (IStr []) [] true;
        Ok (with_hw (hset k i' (m_hw m)) m)
      else if opt_value_eqb t (Some (VStr (L "17"))) then
        do h' <- delete_item E (m_hw m) k; Ok (with_hw h' m)
      else Err EValueUnsupported
  end = Ok m' ->
  m_refs m' = m_refs m /\ m_disks m' = m_disks m /\ m_sources m' = m_sources m /\ dropped E drive (m_hw m) (m_hw m').
Proof.
  intros E m [k|] m' Hi Hd Hk H.
  2:{ injection H as <-. do 3 (split; [reflexivity|]). split; [exact Hi|]. split; [exact Hd|]. split; [reflexivity|discriminate]. }
  destruct (Hk k eq_refl) as [i Hin].
  destruct (value_of_only E m k i RESOURCE_TYPE Hi Hin (RT_not_text E)) as (t & Et & Ht). rewrite Et in H. cbn [rbind] in H.
  assert (OV : forall s, opt_value_eqb t (Some (VStr s)) = true -> t = Some (VStr s)).
  { intros s Hs. destruct t as [w|]; [|discriminate]. cbn in Hs. apply value_eqb_eq in Hs. now f_equal. }
  assert (SAME : forall i0, In (k, i0) (m_hw m) -> i0 = i).
  { intros i0 H0. apply (hitem_In _ _ _ (proj1 Hi)) in H0. apply (hitem_In _ _ _ (proj1 Hi)) in Hin. congruence. }
  destruct (opt_value_eqb t (Some (VStr (L "15")))) eqn:E15.
  - apply OV in E15. pose proof (proj1 (Ht _) E15) as O15.
    rewrite (proj2 (hitem_In _ k i (proj1 Hi)) Hin) in H. cbn [rbind] in H.
    destruct (set_property E i HOST_RESOURCE (IStr []) [] true) as [i'|] eqn:Es; [|discriminate]. cbn [rbind] in H. injection H as <-.
    do 3 (split; [reflexivity|]). cbn [m_hw with_hw].
    pose proof (proj2 Hi k i Hin) as Iid. destruct (unmapped E i i' (proj1 Iid) Es) as (U1 & U2 & U3).
    assert (I' : id_is (e_ver E) k i') by (apply (id_set_other E k i HOST_RESOURCE (IStr []) [] true i' Iid); [destruct (e_ver E); discriminate|exact Es]).
    destruct (touched_old E [HOST_RESOURCE] (m_hw m) k i i' Hi Hd Hin I' U2) as (T1 & T2 & T3 & _).
    { destruct (e_ver E); intros [F|[]]; discriminate F. }
    { intros n q w Hn _. apply U3. intros ->. apply Hn. now left. }
    split; [exact T1|]. split; [exact T2|]. split.
    + intros k' j Nk. apply T3. congruence.
    + intros k' i0 Ek H0. injection Ek as <-. rewrite (SAME i0 H0). right. split; [exact O15|]. exists i'.
      split; [apply (hset_In (m_hw m) k i' k i' (proj1 Hi)); now left|]. now repeat (split; [assumption|]).
  - destruct (opt_value_eqb t (Some (VStr (L "17")))) eqn:E17; [|discriminate]. apply OV in E17. pose proof (proj1 (Ht _) E17) as O17.
    unfold delete_item in H. pose proof (value_of_id E m k i Hi Hd Hin) as V. unfold value_of in V.
    rewrite (proj2 (hitem_In _ k i (proj1 Hi)) Hin) in H, V. cbn [rbind] in H, V. rewrite V in H. cbn [rbind] in H. rewrite str_eqb_refl in H. cbn [rbind] in H.
    injection H as <-. do 3 (split; [reflexivity|]). cbn [m_hw with_hw]. split; [now apply ids_hdel|]. split; [|split].
    + intros k' j Hj. apply (hdel_In _ _ _ _ (proj1 Hi)) in Hj as [_ Hj]. now apply Hd.
    + intros k' j Nk. rewrite (hdel_In _ _ _ _ (proj1 Hi)). split; [tauto|]. intros Hj. split; [congruence|exact Hj].
    + intros k' i0 Ek H0. injection Ek as <-. rewrite (SAME i0 H0). left. split; [exact O17|]. intros [j Hj]. apply (hdel_In _ _ _ _ (proj1 Hi)) in Hj. now apply Hj.
Qed.

Lemma remove_file_spec : forall E m j x disk oy drive m', ids_ok (e_ver E) (m_hw m) -> identified E (m_hw m) ->
  file_at (e_ver E) m j x -> (match disk, oy with Some d, Some y => disk_at (e_ver E) m d y | None, None => True | _, _ => False end) ->
  (forall k, drive = Some k -> exists i, In (k, i) (m_hw m)) ->
  remove_file E m j disk drive = Ok m' ->
  (exists A B, files (e_ver E) m = A ++ x :: B /\ files (e_ver E) m' = A ++ B) /\
  (exists C D, disks (e_ver E) m = C ++ one oy ++ D /\ disks (e_ver E) m' = C ++ D) /\
  (exists h, get_attr x (FILE_HREF (e_ver E)) = Some h /\ m_sources m' = ddel str_eqb h (m_sources m)) /\
  dropped E drive (m_hw m) (m_hw m').
Proof.
  intros E m j x disk oy drive m' Hi Hd Hx Hy Hk H. unfold remove_file in H. set (v := e_ver E) in *.
  rewrite (attr_file v m j x _ Hx) in H. cbn [rbind] in H. destruct (get_attr x (FILE_HREF v)) as [h|] eqn:Eh; [|discriminate].
  destruct (negb (dmem str_eqb h (m_sources m))); [discriminate|].
  destruct Hx as [Hn Ht]. destruct (split_at _ _ _ _ Hn) as (l1 & l2 & E1 & E2 & _ & E3). rewrite E3 in H.
  set (m1 := with_sources _ _) in H.
  assert (F1 : files v m1 = tagged (FILE v) l1 ++ tagged (FILE v) l2).
  { unfold files, m1. cbn [m_refs with_sources with_refs]. rewrite children_set. apply tagged_app. }
  assert (F0 : files v m = tagged (FILE v) l1 ++ x :: tagged (FILE v) l2) by (unfold files; rewrite E1; now apply (tagged_mid (FILE v) l1 x l2)).
  assert (Q : exists m2, m_refs m2 = m_refs m1 /\ m_hw m2 = m_hw m /\ m_sources m2 = m_sources m1 /\ (exists C D, disks v m = C ++ one oy ++ D /\ disks v m2 = C ++ D) /\
     match drive with
     | None => Ok m2
     | Some k =>
      do t <- value_of E m2 k RESOURCE_TYPE;
      if opt_value_eqb t (Some (VStr (L "15"))) then
        do i <- hitem k (m_hw m2);
        do i' <- set_property E i HOST_RESOURCE (IStr []) [] true;
        Ok (with_hw (hset k i' (m_hw m2)) m2)
      else if opt_value_eqb t (Some (VStr (L "17"))) then
        do h' <- delete_item E (m_hw m2) k; Ok (with_hw h' m2)
      else Err EValueUnsupported
     end = Ok m').
  { destruct disk as [d|], oy as [y|]; try contradiction.
    - destruct Hy as (sec & Hs & Hdn & Hdt). assert (Hs1 : the_disks m1 = Ok sec) by (unfold the_disks, m1; cbn [m_disks with_sources with_refs]; now rewrite Hs).
      rewrite Hs1 in H. cbn [rbind] in H. destruct (split_at _ _ _ _ Hdn) as (c1 & c2 & E4 & E5 & _ & E6). rewrite E6 in H.
      eexists. split; [|split; [|split; [|split; [|exact H]]]]; [reflexivity..|].
      exists (tagged (DISK v) c1), (tagged (DISK v) c2). split; [rewrite (disks_Some v m sec Hs), E4; now apply (tagged_mid (DISK v) c1 y c2)|].
      unfold disks. cbn [m_disks with_disks]. rewrite children_set. apply tagged_app.
    - cbn [rbind] in H. exists m1. split; [reflexivity|]. split; [reflexivity|]. split; [reflexivity|]. split; [|exact H].
      exists (disks v m), []. cbn. rewrite !app_nil_r. split; reflexivity. }
  clear H. destruct Q as (m2 & Q1 & Q2 & Q3 & Q4 & H).
  apply dropped_spec in H as (R1 & R2 & R3 & R4); [|now rewrite Q2|now rewrite Q2|rewrite Q2; exact Hk]. rewrite Q2 in R4.
  split. { exists (tagged (FILE v) l1), (tagged (FILE v) l2). split; [exact F0|]. rewrite <- F1. unfold files. now rewrite R1, Q1. }
  split. { destruct Q4 as (C & D & Q5 & Q6). exists C, D. split; [exact Q5|]. rewrite <- Q6. unfold disks. now rewrite R2. }
  split; [|exact R4]. exists h. split; [reflexivity|]. rewrite R3, Q3. reflexivity.
Qed.

Section Run.
  Variable agree : prompt -> bool.

Theorem remove_links : forall E m path id m',
  ids_ok (e_ver E) (m_hw m) -> identified E (m_hw m) -> linked (e_ver E) m -> plain_drives E m -> one_drive (e_ver E) m ->
  remove_file_run agree E m path id = Ok m' ->
  ids_ok (e_ver E) (m_hw m') /\ identified E (m_hw m') /\ linked (e_ver E) m' /\ plain_drives E m' /\ one_drive (e_ver E) m' /\
  exists f A B, files (e_ver E) m = A ++ f :: B /\ files (e_ver E) m' = A ++ B /\
    (forall p, path = Some p -> get_attr f (FILE_HREF (e_ver E)) = Some p) /\ (forall s, id = Some s -> get_attr f (FILE_ID (e_ver E)) = Some s) /\
    (sourced (e_ver E) m -> sourced (e_ver E) m') /\
    (exists h, get_attr f (FILE_HREF (e_ver E)) = Some h /\ forall h', h' <> h -> dget str_eqb h' (m_sources m') = dget str_eqb h' (m_sources m)) /\
    (exists oy C D, disks (e_ver E) m = C ++ oy ++ D /\ disks (e_ver E) m' = C ++ D /\
       (forall d, In d oy <-> In d (disks (e_ver E) m) /\ get_attr d (DISK_FILE_REF (e_ver E)) = get_attr f (FILE_ID (e_ver E)))) /\
    (forall k i, In (k, i) (m_hw m) -> (forall p s, own (i_props i) HOST_RESOURCE p (VStr s) -> ~ file_of (e_ver E) m s f) -> In (k, i) (m_hw m')) /\
    (forall k i p s, In (k, i) (m_hw m) -> own (i_props i) HOST_RESOURCE p (VStr s) -> file_of (e_ver E) m s f ->
       (only_value (i_props i) RESOURCE_TYPE (VStr (L "17")) /\ ~ taken (m_hw m') k) \/
       (only_value (i_props i) RESOURCE_TYPE (VStr (L "15")) /\ exists i', In (k, i') (m_hw m') /\
          (forall q w, ~ own (i_props i') HOST_RESOURCE q w) /\
          (forall n q w, n <> HOST_RESOURCE -> (own (i_props i') n q w <-> own (i_props i) n q w)))) /\
    (forall k, taken (m_hw m') k -> taken (m_hw m) k).
Proof.
  intros E m path id m' Hi Hd Hl Hp H1d H. unfold remove_file_run in H. set (v := e_ver E) in *.
  destruct (search_from_filename E m path) as [r1|] eqn:S1; [|discriminate]. cbn [rbind] in H.
  destruct (search_from_file_id E m id) as [r2|] eqn:S2; [|discriminate]. cbn [rbind] in H.
  pose proof (filename_drive E m path r1) as DV1. pose proof (file_id_drive E m id r2) as DV2. pose proof (filename_disks E m path r1) as AD1. pose proof (file_id_disks E m id r2) as AD2.
  pose proof (filename_says E m path r1 Hi Hl Hp S1) as [Y1 Z1]. pose proof (file_id_says E m id r2 Hi Hl Hp S2) as [Y2 Z2].
  destruct r1 as [[[f1 d1] c1] i1], r2 as [[[f2 d2] c2] i2]. set (rs := [(f1, d1, c1, i1); (f2, d2, c2, i2)] : list found).
  destruct (check_for_conflict Nat.eqb [f1; f2]) as [[j|]|] eqn:C1; [| |discriminate]; cbn [rbind] in H.
  2:{ destruct (check_for_conflict Nat.eqb [d1; d2]) as [disk|]; [|discriminate]. cbn [rbind] in H. destruct (check_for_conflict str_eqb [i1; i2]); discriminate. }
  destruct (check_for_conflict Nat.eqb [d1; d2]) as [disk|] eqn:C2; [|discriminate]. cbn [rbind] in H.
  destruct (check_for_conflict str_eqb [i1; i2]) as [drive|] eqn:C3; [|discriminate]. cbn [rbind] in H.
  assert (HS : forall r, In r rs -> says E m r) by (intros r [<-|[<-|[]]]; assumption).
  assert (NF : forall r, In r rs -> r_file r = None -> r = nothing).
  { intros r [<-|[<-|[]]] F; unfold r_file in F; cbn [fst] in *; subst; [exact (proj1 Z1)|exact (proj1 Z2)]. }
  assert (HB : forall j0 j' x y, Some j = Some j0 -> disk = Some j' -> file_at v m j0 x -> disk_at v m j' y -> get_attr y (DISK_FILE_REF v) = get_attr x (FILE_ID v)).
  { intros j0 j' x y Ej -> Hx Hy. injection Ej as <-. apply (merge_Some _ nat_eqb_eq r_disk rs) in C2 as (r & Hr & Er).
    destruct (r_file r) as [j1|] eqn:E1.
    - pose proof (merge_same Nat.eqb nat_eqb_eq r_file rs (Some j) r j1 C1 Hr E1) as E2. injection E2 as ->.
      apply (s_both _ _ _ (HS r Hr) j1 j' x y E1 Er Hx Hy).
    - apply NF in E1; [|exact Hr]. subst r. discriminate. }
  destruct (merge_Some _ nat_eqb_eq r_file rs j C1) as (r0 & Hr0 & Er0).
  destruct (s_file _ _ _ (HS r0 Hr0) j Er0) as [x Hx]. fold v in Hx.
  rewrite !(attr_file v m j x _ Hx) in H. cbn [rbind] in H.
  assert (IDX : forall s, id = Some s -> get_attr x (FILE_ID v) = Some s).
  { intros s ->. destruct (match_or_die opt_eqb (Some s) _) as [[]|] eqn:Em; [|discriminate]. now apply die_opt in Em. }
  destruct (match id with Some _ => _ | None => Ok tt end) as [[]|]; [|discriminate]. cbn [rbind] in H.
  assert (PX : forall p, path = Some p -> get_attr x (FILE_HREF v) = Some p).
  { intros p ->. destruct (match_or_die opt_eqb (Some p) _) as [[]|] eqn:Em; [|discriminate]. now apply die_opt in Em. }
  destruct (match path with Some _ => _ | None => Ok tt end) as [[]|]; [|discriminate]. cbn [rbind] in H.
  destruct (confirm_or_die _ _) as [[]|]; [|discriminate]. cbn [rbind] in H.
  (* all disks *)
  assert (AD : forall d, In d (disks v m) -> get_attr d (DISK_FILE_REF v) = get_attr x (FILE_ID v) -> exists j', disk = Some j' /\ disk_at v m j' d).
  { intros d Hdd Ed.
    assert (A : exists j', r_disk r0 = Some j' /\ disk_at v m j' d).
    { destruct Hr0 as [<-|[<-|[]]]; [apply (AD1 x j d)|apply (AD2 x j d)]; try assumption; reflexivity. }
    destruct A as (j' & A1 & A2). exists j'. split; [|exact A2]. exact (merge_same Nat.eqb nat_eqb_eq r_disk rs disk r0 j' C2 Hr0 A1). }
  assert (PD : forall d, disk = Some d -> exists y, disk_at v m d y).
  { intros d ->. apply (merge_Some _ nat_eqb_eq r_disk rs) in C2 as (r & Hr & Er). exact (s_disk _ _ _ (HS r Hr) d Er). }
  destruct (disk_choice v m disk PD) as [oy Hoy].
  assert (PK : forall k, drive = Some k -> exists i, In (k, i) (m_hw m)).
  { intros k ->. apply (merge_Some _ str_eqb_eq r_drive rs) in C3 as (r & Hr & Er).
    destruct (s_drive _ _ _ (HS r Hr) k Er) as [(i & I1 & _) _]. now exists i. }
  (* the drive *)
  assert (DR : forall k s, drive_ref m k s -> file_of v m s x -> drive = Some k).
  { intros k s Hk Hf. pose proof Hf as (Fx & fid & Fid & [Fr|(d & Fd & Fr)]).
    - destruct (s_file_drive _ _ _ (HS r0 Hr0) j x s k fid Er0 Hx Hk Fid Fr) as (k2 & s2 & K1 & (i0 & p0 & K2 & K3) & K4).
      pose proof (merge_same str_eqb str_eqb_eq r_drive rs drive r0 k2 C3 Hr0 K1) as ->. f_equal.
      destruct Hk as (i1' & p1 & L1 & L2). apply (H1d k2 i0 p0 s2 k i1' p1 s K2 K3 L1 L2). right. exists x. now split.
    - destruct (AD d (proj1 Fd)) as (j' & -> & Hj'); [congruence|].
      destruct (merge_Some _ nat_eqb_eq r_disk rs j' C2) as (r & Hr & Er).
      destruct (s_disk_drive _ _ _ (HS r Hr) j' d s k Er Hj' Hk Fd) as (k2 & s2 & K1 & (i0 & p0 & K2 & K3) & K4).
      pose proof (merge_same str_eqb str_eqb_eq r_drive rs drive r k2 C3 Hr K1) as ->. f_equal.
      destruct Hk as (i1' & p1 & L1 & L2). apply (H1d k2 i0 p0 s2 k i1' p1 s K2 K3 L1 L2). destruct K4 as [K4|(g & K4 & K5)]; [left; now exists d|right].
      exists g. split; [exact K4|]. pose proof K4 as (G1 & gid & G2 & _). split; [exact G1|]. exists gid. split; [exact G2|]. right. exists d. split; [exact Fd|].
      fold v in K5, G2. congruence. }
  destruct (remove_file_spec E m j x disk oy drive m' Hi Hd Hx Hoy PK H) as ((A & B & F1 & F2) & (C & D & D1 & D2) & SRC & T1 & T2 & T3 & T4).
  fold v in F1, F2, D1, D2, SRC.
  (* devices afterwards *)
  assert (OLD : forall k jj, In (k, jj) (m_hw m') -> (In (k, jj) (m_hw m) /\ drive <> Some k) \/
     (drive = Some k /\ exists i, In (k, i) (m_hw m) /\ (forall q w, ~ own (i_props jj) HOST_RESOURCE q w))).
  { intros k jj Hjj. destruct drive as [k0|]; [|left; split; [now apply T3|discriminate]].
    destruct (str_eq_dec k0 k) as [->|N]; [right|left; split; [apply T3; [congruence|exact Hjj]|congruence]].
    split; [reflexivity|]. destruct (PK k eq_refl) as [i Hin]. exists i. split; [exact Hin|].
    destruct (T4 k i eq_refl Hin) as [[_ T]|[_ (i' & T5 & T6 & _)]]; [exfalso; apply T; now exists jj|].
    assert (jj = i') as -> by (apply (hitem_In _ _ _ (proj1 T1)) in Hjj; apply (hitem_In _ _ _ (proj1 T1)) in T5; congruence). exact T6. }
  assert (HRO : forall k jj p s, In (k, jj) (m_hw m') -> own (i_props jj) HOST_RESOURCE p (VStr s) -> In (k, jj) (m_hw m) /\ drive <> Some k).
  { intros k jj p s Hjj Ho. destruct (OLD k jj Hjj) as [X|(_ & i & _ & X)]; [exact X|now apply X in Ho]. }
  assert (NFX : forall k jj p s, In (k, jj) (m_hw m') -> own (i_props jj) HOST_RESOURCE p (VStr s) -> ~ file_of v m s x).
  { intros k jj p s Hjj Ho Hf. destruct (HRO k jj p s Hjj Ho) as [X1 X2]. apply X2. apply (DR k s); [now exists jj, p|exact Hf]. }
  assert (INF : forall e, In e (files v m') -> In e (files v m)).
  { intros e He. rewrite F2 in He. rewrite F1. apply in_mid. now right. }
  assert (IND : forall e, In e (disks v m') -> In e (disks v m)).
  { intros e He. rewrite D2 in He. rewrite D1. apply in_one. now right. }
  destruct (proj1 (l_file_ids _ _ Hl) x (file_at_In _ _ _ _ Hx)) as [xid Hxid].
  assert (OYF : forall d, oy = Some d -> get_attr d (DISK_FILE_REF v) = get_attr x (FILE_ID v)).
  { intros d ->. destruct disk as [dj|]; [|contradiction]. now apply (HB j dj x d). }
  assert (OYI : forall d, oy = Some d <-> In d (disks v m) /\ get_attr d (DISK_FILE_REF v) = get_attr x (FILE_ID v)).
  { intros d. split; [intros E0; split; [rewrite D1; apply in_one; now left|now apply OYF]|]. intros [X1 X2].
    destruct (AD d X1 X2) as (j' & -> & Hj'). destruct oy as [y|]; [|contradiction]. f_equal. now apply (disk_at_fun v m j'). }
  split; [exact T1|]. split; [exact T2|]. split; [|split; [|split]].
  - constructor.
    + rewrite F2. apply (unique_remove (FILE_ID v) A (Some x) B). cbn [one app]. rewrite <- F1. apply (l_file_ids _ _ Hl).
    + rewrite F2. apply (unique_remove (FILE_HREF v) A (Some x) B). cbn [one app]. rewrite <- F1. apply (l_file_names _ _ Hl).
    + rewrite D2. apply (unique_remove (DISK_ID v) C oy D). rewrite <- D1. apply (l_disk_ids _ _ Hl).
    + intros d r Hdd Hr. destruct (l_disk_files _ _ Hl d r (IND d Hdd) Hr) as (g & G1 & G2). fold v in G1, G2.
      exists g. split; [|exact G2]. rewrite F1 in G1. rewrite F2. apply in_mid in G1 as [->|G1]; [exfalso|exact G1].
      assert (E0 : oy = Some d) by (apply OYI; split; [now apply IND|congruence]). subst oy.
      destruct (proj1 (l_disk_ids _ _ Hl) d (IND d Hdd)) as [did Edid]. fold v in Edid.
      rewrite D2 in Hdd. refine (unique_rest (DISK_ID v) C d D did d _ Edid Hdd Edid). rewrite <- D1. apply (l_disk_ids _ _ Hl).
    + intros k jj p s did Hjj Ho Hr. destruct (HRO k jj p s Hjj Ho) as [X1 X2].
      destruct (l_drive_disks _ _ Hl k jj p s did X1 Ho Hr) as (d & Hdd & Ed). fold v in Hdd, Ed. exists d. split; [|exact Ed].
      rewrite D1 in Hdd. rewrite D2. apply in_one in Hdd as [E0|Hdd]; [exfalso|exact Hdd].
      pose proof (proj1 (OYI d) E0) as [Z3 Z4]. apply (NFX k jj p s Hjj Ho). split; [now apply file_at_In in Hx|]. exists xid. split; [exact Hxid|]. right.
      exists d. split; [|congruence]. split; [exact Z3|]. now exists did.
    + intros k jj p s fid Hjj Ho Hr. destruct (HRO k jj p s Hjj Ho) as [X1 X2].
      destruct (l_drive_files _ _ Hl k jj p s fid X1 Ho Hr) as (g & Hg & Eg). fold v in Hg, Eg. exists g. split; [|exact Eg].
      rewrite F1 in Hg. rewrite F2. apply in_mid in Hg as [->|Hg]; [exfalso|exact Hg].
      apply (NFX k jj p s Hjj Ho). split; [now apply file_at_In in Hx|]. exists fid. split; [exact Eg|now left].
  - intros k jj Hjj. destruct (OLD k jj Hjj) as [[X1 X2]|(_ & i & _ & X)].
    + exact (Hp k jj X1).
    + split; [intros p q a b Ha; now apply X in Ha|intros p a Ha; now apply X in Ha].
  - assert (DO : forall s d, disk_of v m' s d -> disk_of v m s d).
    { intros s d [X1 X2]. split; [now apply IND|exact X2]. }
    assert (FO : forall s g, file_of v m' s g -> file_of v m s g).
    { intros s g (X1 & gid & X2 & X3). split; [now apply INF|]. exists gid. split; [exact X2|].
      destruct X3 as [X3|(d & X3 & X4)]; [now left|right]. exists d. split; [now apply DO|exact X4]. }
    intros k i p s k' i' p' s' K1 K2 K3 K4 K5. destruct (HRO k i p s K1 K2) as [L1 _]. destruct (HRO k' i' p' s' K3 K4) as [L2 _].
    apply (H1d k i p s k' i' p' s' L1 K2 L2 K4). destruct K5 as [(d & M1 & M2)|(g & M1 & M2)]; [left; exists d|right; exists g]; split; auto.
  - exists x, A, B. split; [exact F1|]. split; [exact F2|]. split; [exact PX|]. split; [exact IDX|].
    destruct SRC as (h & Eh & SRC).
    assert (OTH : forall h', h' <> h -> dget str_eqb h' (m_sources m') = dget str_eqb h' (m_sources m)).
    { intros h' N. rewrite SRC. now apply (dget_ddel_other str_eqb str_eqb_eq). }
    split; [|split; [exists h; now split|]].
    { intros [ND SM]. split; [rewrite SRC; now apply (ddel_NoDup str_eqb str_eqb_eq)|]. intros h'. destruct (str_eq_dec h' h) as [->|N].
      - rewrite SRC, (dget_ddel_same str_eqb str_eqb_eq) by exact ND. split; [intros [d F]; discriminate|]. intros (g & Hg & Eg). exfalso. rewrite F2 in Hg.
        refine (unique_rest (FILE_HREF v) A x B h g _ Eh Hg Eg). cbn [one app]. rewrite <- F1. apply (l_file_names _ _ Hl).
      - rewrite (OTH h' N), SM, F1, F2. split; intros (g & Hg & Eg); exists g; (split; [|exact Eg]); [apply in_mid in Hg as [->|Hg]; [congruence|exact Hg]|apply in_mid; now right]. }
    split; [|split; [|split]].
    + exists (one oy), C, D. split; [exact D1|]. split; [exact D2|]. intros d. rewrite <- OYI. destruct oy as [y|]; cbn [one In]; split; intuition congruence.
    + intros k i Hin Hn. destruct drive as [k0|]; [|now apply T3]. destruct (str_eq_dec k0 k) as [->|N]; [exfalso|apply T3; [congruence|exact Hin]].
      (* the drive that was found does refer to the file *)
      apply (merge_Some _ str_eqb_eq r_drive rs) in C3 as (r & Hr & Er).
      assert (FR : exists s, drive_ref m k s /\ file_of v m s x).
      { destruct (r_file r) as [j1|] eqn:E1; [|apply NF in E1; [subst r; discriminate|exact Hr]].
        pose proof (merge_same Nat.eqb nat_eqb_eq r_file rs (Some j) r j1 C1 Hr E1) as E2. injection E2 as ->.
        destruct Hr as [<-|[<-|[]]]; [apply (DV1 j1 x k)|apply (DV2 j1 x k)]; try assumption; reflexivity. }
      destruct FR as (s & (i0 & p0 & G1 & G2) & G3).
      assert (i0 = i) as -> by (apply (hitem_In _ _ _ (proj1 Hi)) in G1; apply (hitem_In _ _ _ (proj1 Hi)) in Hin; congruence). now apply (Hn p0 s).
    + intros k i p s Hin Ho Hf. assert (E0 : drive = Some k) by (apply (DR k s); [now exists i, p|exact Hf]).
      destruct (T4 k i E0 Hin) as [X|(X & i' & X1 & X2 & X3 & X4)]; [now left|right]. split; [exact X|]. now exists i'.
    + intros k [jj Hjj]. destruct (OLD k jj Hjj) as [[X1 _]|(_ & i & X & _)]; [now exists jj|now exists i].
Qed.
End Run.
