(** Proofs about the command add-disk. *)
From Coq Require Import Lia Permutation Sorted ZArith.
From Verif Require Import PyBase PyBaseProofs PyDict PyDictProofs ValidationModel ValidationSpec ValidationProofs XmlModel NamesModel
  ItemModel ItemSpec HardwareModel HardwareSpec HardwareProofs HardwareIdProofs CountSpec CountItemProofs CountProofs FindSpec FindProofs
  RawModel NetworkModel DriveModel DriveSpec SlotProofs DeviceProofs LinkProofs SearchProofs AddProofs WorkerProofs.
Local Open Scope nat_scope.

(** The steps of the command. *)
Lemma worker_inv : forall agree E fuel guess m im dt file_id controller subtype address diskname desc m' k,
  add_disk_worker agree E fuel guess m im dt file_id controller subtype address diskname desc = Ok (m', k) ->
  exists file disk ctrl0 drive ct ctrl addr fid m1 fj m2 oj parts sub m3 ck,
    search_for_elements E m (im_name im) file_id controller address = Ok (file, disk, ctrl0, drive) /\
    (forall c, controller = Some c -> ct = c) /\
    (controller = None -> guess_controller_type E m guess ctrl0 dt = Ok ct) /\
    (match ctrl0, address with
     | None, None => (find_open_controller E m ct = Ok None /\ ctrl = None /\ addr = None) \/
                     (exists k a, find_open_controller E m ct = Ok (Some (k, a)) /\ ctrl = Some k /\ addr = Some a)
     | _, _ => ctrl = ctrl0 /\ addr = address
     end) /\
    validate_elements E m file disk drive ctrl file_id ct = Ok tt /\
    (fid = im_name im /\ file_id = None /\ (forall f, file = Some f -> attr_at (m_refs m) f (FILE_ID (e_ver E)) = Ok None) /\
       (forall d, disk = Some d -> (do sec <- the_disks m; attr_at sec d (DISK_FILE_REF (e_ver E))) = Ok None) \/
     file_id = Some fid \/
     (file_id = None /\ exists f, file = Some f /\ attr_at (m_refs m) f (FILE_ID (e_ver E)) = Ok (Some fid)) \/
     (file_id = None /\ (forall f, file = Some f -> attr_at (m_refs m) f (FILE_ID (e_ver E)) = Ok None) /\
        exists d, disk = Some d /\ (do sec <- the_disks m; attr_at sec d (DISK_FILE_REF (e_ver E))) = Ok (Some fid))) /\
    add_file (e_ver E) m im fid file disk = Ok (m1, fj) /\
    add_disk fuel (e_ver E) m1 im fid dt disk = Ok (m2, oj) /\
    (match addr with
     | Some a => exists x y r, split_on ":"%char a = x :: y :: r /\ parts = (Some x, Some y)
     | None => parts = (None, None) end) /\
    add_controller_device E m2 ct sub (fst parts) ctrl = Ok (m3, ck) /\
    add_disk_device E m3 dt (snd parts) diskname desc oj fj ck drive = Ok (m', k).
Proof.
  intros agree E fuel guess m im dt file_id controller subtype address diskname desc m' k H. unfold add_disk_worker in H.
  destruct (search_for_elements E m (im_name im) file_id controller address) as [[[[file disk] ctrl0] drive]|] eqn:E1; [|discriminate]. cbn [rbind] in H.
  match type of H with rbind ?r _ = _ => destruct r as [ct|] eqn:E2; [|discriminate] end. cbn [rbind] in H.
  match type of H with rbind ?r _ = _ => destruct r as [[ctrl addr]|] eqn:E3; [|discriminate] end. cbn [rbind] in H.
  match type of H with rbind ?r _ = _ => destruct r as [[]|] eqn:E4; [|discriminate] end. cbn [rbind] in H.
  match type of H with rbind ?r _ = _ => destruct r as [[]|] eqn:E5; [|discriminate] end. cbn [rbind] in H.
  match type of H with rbind ?r _ = _ => destruct r as [id1|] eqn:E6; [|discriminate] end. cbn [rbind] in H.
  match type of H with rbind ?r _ = _ => destruct r as [id2|] eqn:E7; [|discriminate] end. cbn [rbind] in H.
  match type of H with rbind ?r _ = _ => destruct r as [[m1 fj]|] eqn:E8; [|discriminate] end. cbn [rbind fst snd] in H.
  match type of H with rbind ?r _ = _ => destruct r as [[m2 oj]|] eqn:E9; [|discriminate] end. cbn [rbind fst snd] in H.
  match type of H with rbind ?r _ = _ => destruct r as [parts|] eqn:E10; [|discriminate] end. cbn [rbind] in H.
  match type of H with rbind ?r _ = _ => destruct r as [sub|] eqn:E11; [|discriminate] end. cbn [rbind] in H.
  match type of H with rbind ?r _ = _ => destruct r as [[m3 ck]|] eqn:E12; [|discriminate] end. cbn [rbind fst snd] in H.
  exists file, disk, ctrl0, drive, ct, ctrl, addr, (match id2 with Some s => s | None => im_name im end), m1, fj, m2, oj, parts, sub, m3, ck.
  split; [reflexivity|]. split; [intros c ->; now injection E2|]. split; [intros ->; exact E2|]. split.
  { destruct ctrl0 as [c0|]; [destruct address; injection E3 as <- <-; now split|]. destruct address as [a0|]; [injection E3 as <- <-; now split|].
    destruct (find_open_controller E m ct) as [[[k0 a0]|]|]; [right|left|discriminate]; cbn [rbind] in E3; injection E3 as <- <-; [exists k0, a0|]; now repeat split. }
  split; [exact E4|]. split; [|split; [exact E8|split; [exact E9|split; [|split; [exact E12|exact H]]]]].
  - destruct file_id as [s|].
    + injection E6 as <-. injection E7 as <-. right. now left.
    + destruct file as [f|].
      * destruct id1 as [s|]; [injection E7 as <-; right; right; left; split; [reflexivity|eauto]|].
        destruct disk as [d|].
        -- destruct id2 as [s|].
           ++ right. right. right. split; [reflexivity|]. split; [intros f0 Ef; injection Ef as <-; exact E6|]. exists d. split; [reflexivity|]. exact E7.
           ++ left. split; [reflexivity|]. split; [reflexivity|]. split; [intros f0 Ef; injection Ef as <-; exact E6|]. intros d0 Ed. injection Ed as <-. exact E7.
        -- injection E7 as <-. left. split; [reflexivity|]. split; [reflexivity|]. split; [intros f0 Ef; injection Ef as <-; exact E6|discriminate].
      * injection E6 as <-. destruct disk as [d|].
        -- destruct id2 as [s|].
           ++ right. right. right. split; [reflexivity|]. split; [discriminate|]. exists d. split; [reflexivity|]. exact E7.
           ++ left. split; [reflexivity|]. split; [reflexivity|]. split; [discriminate|]. intros d0 Ed. injection Ed as <-. exact E7.
        -- injection E7 as <-. left. now repeat split.
  - destruct addr as [a|]; [|now injection E10]. destruct (split_on ":"%char a) as [|x [|y r]] eqn:Es; try discriminate.
    injection E10 as <-. exists x, y, r. now split.
Qed.

(** What the search for the elements says. *)
Theorem elements_say : forall E m name file_id controller address file disk ctrl drive,
  ids_ok (e_ver E) (m_hw m) -> identified E (m_hw m) -> linked (e_ver E) m -> plain_drives E m -> plain_ids (e_ver E) m ->
  search_for_elements E m name file_id controller address = Ok (file, disk, ctrl, drive) ->
  (forall j j' x y, file = Some j -> disk = Some j' -> file_at (e_ver E) m j x -> disk_at (e_ver E) m j' y ->
     get_attr y (DISK_FILE_REF (e_ver E)) = get_attr x (FILE_ID (e_ver E))) ->
  says E m (file, disk, ctrl, drive) /\
  (forall x, In x (files (e_ver E) m) -> get_attr x (FILE_HREF (e_ver E)) = Some name -> exists j, file = Some j /\ file_at (e_ver E) m j x) /\
  (forall x, In x (files (e_ver E) m) -> get_attr x (FILE_ID (e_ver E)) = Some (match file_id with Some s => s | None => name end) ->
     exists j, file = Some j /\ file_at (e_ver E) m j x).
Proof.
  intros E m name file_id controller address file disk ctrl drive Hi Hd Hl Hp Pi H Hb. unfold search_for_elements in H.
  destruct (search_from_filename E m (Some name)) as [[[[f1 d1] c1] i1]|] eqn:E1; [|discriminate]. cbn [rbind] in H.
  destruct (search_from_file_id E m _) as [[[[f2 d2] c2] i2]|] eqn:E2; [|discriminate]. cbn [rbind] in H.
  destruct (search_from_controller E m controller address) as [[[[f3 d3] c3] i3]|] eqn:E3; [|discriminate]. cbn [rbind] in H.
  destruct (check_for_conflict Nat.eqb [f1; f2; f3]) as [f|] eqn:C1; [|discriminate]. cbn [rbind] in H.
  destruct (check_for_conflict Nat.eqb [d1; d2; d3]) as [d|] eqn:C2; [|discriminate]. cbn [rbind] in H.
  destruct (check_for_conflict str_eqb [c1; c2; c3]) as [c|] eqn:C3; [|discriminate]. cbn [rbind] in H.
  destruct (check_for_conflict str_eqb [i1; i2; i3]) as [i|] eqn:C4; [|discriminate]. cbn [rbind] in H. injection H as -> -> -> ->.
  apply filename_says in E1 as [S1 N1]; try assumption. apply file_id_says in E2 as [S2 N2]; try assumption.
  apply controller_says in E3 as [S3 _]; try assumption. cbn [fst snd] in N1, N2. set (rs := [(f1, d1, c1, i1); (f2, d2, c2, i2); (f3, d3, c3, i3)] : list found).
  assert (M : forall j, (f1 = Some j \/ f2 = Some j) -> file = Some j).
  { intros j [Ej|Ej].
    - apply (merge_same Nat.eqb nat_eqb_eq r_file rs file (f1, d1, c1, i1) j C1); [now left|exact Ej].
    - apply (merge_same Nat.eqb nat_eqb_eq r_file rs file (f2, d2, c2, i2) j C1); [right; now left|exact Ej]. }
  split; [|split].
  - apply (merged_says E m rs); try assumption. intros r [<-|[<-|[<-|[]]]]; assumption.
  - intros x Hx Hh. destruct f1 as [j|].
    + destruct N1 as (x' & Hx' & Hh'). assert (x = x') as -> by (apply (unique_same _ _ _ _ _ (l_file_names _ _ Hl) Hx (file_at_In _ _ _ _ Hx') Hh Hh')).
      exists j. split; [apply M; now left|exact Hx'].
    + destruct N1 as [_ N1]. now apply N1 in Hh.
  - intros x Hx Hh. destruct f2 as [j|].
    + destruct N2 as (x' & Hx' & Hh' & _). assert (x = x') as ->.
      { apply (unique_same _ _ _ _ _ (l_file_ids _ _ Hl) Hx (file_at_In _ _ _ _ Hx') Hh). rewrite Hh'. now destruct file_id. }
      exists j. split; [apply M; now right|exact Hx'].
    + destruct N2 as [_ N2]. exfalso. apply (N2 x Hx); [destruct file_id; discriminate|]. rewrite Hh. now destruct file_id.
Qed.

Lemma refers_disk_own : forall v id id', refers_disk v (DISK_REF v ++ id) id' -> id' = id.
Proof.
  intros v id id' [H|H].
  - now apply app_inv_head in H.
  - destruct v; [now apply (app_inv_head OLD_DISK_REF) in H|discriminate H..].
Qed.
Lemma refers_file_own : forall v id id', refers_file v (FILE_REF v ++ id) id' -> id' = id.
Proof.
  intros v id id' [H|H].
  - now apply app_inv_head in H.
  - destruct v; [now apply (app_inv_head OLD_FILE_REF) in H|discriminate H..].
Qed.
Lemma refers_mix1 : forall v id id', ~ refers_file v (DISK_REF v ++ id) id'.
Proof. intros v id id' [H|H]; destruct v; discriminate H. Qed.
Lemma refers_mix2 : forall v id id', ~ refers_disk v (FILE_REF v ++ id) id'.
Proof. intros v id id' [H|H]; destruct v; discriminate H. Qed.

Lemma file_choice : forall v m (file : option nat), (forall j, file = Some j -> exists x, file_at v m j x) ->
  exists ox, match file, ox with Some f, Some x => file_at v m f x | None, None => True | _, _ => False end.
Proof. intros v m [j|] H; [destruct (H j eq_refl) as [x Hx]; now exists (Some x)|now exists None]. Qed.
Lemma disk_choice : forall v m (disk : option nat), (forall j, disk = Some j -> exists x, disk_at v m j x) ->
  exists oy, match disk, oy with Some f, Some x => disk_at v m f x | None, None => True | _, _ => False end.
Proof. intros v m [j|] H; [destruct (H j eq_refl) as [x Hx]; now exists (Some x)|now exists None]. Qed.

Lemma one_length : forall o, length (one o) <= 1.
Proof. intros [x|]; cbn; lia. Qed.
Lemma in_mid : forall (A : list elem) x B e, In e (A ++ x :: B) <-> e = x \/ In e (A ++ B).
Proof. intros A x B e. rewrite !in_app_iff. cbn [In]. intuition congruence. Qed.
Lemma in_one : forall A o B (e : elem), In e (A ++ one o ++ B) <-> o = Some e \/ In e (A ++ B).
Proof. intros A [x|] B e; cbn [one app]; [rewrite in_mid|]; split; intuition congruence. Qed.

Lemma only_moved : forall i j n w, (forall q u, own (i_props j) n q u <-> own (i_props i) n q u) -> only_value (i_props i) n w -> only_value (i_props j) n w.
Proof. intros i j n w H [[p Hp] Ho]. split; [exists p; now apply H|]. intros q u Hu. apply (Ho q). now apply H. Qed.

Lemma sources_added : forall v m m' name dir ox A B nf, files v m = A ++ one ox ++ B -> files v m' = A ++ nf :: B ->
  unique_attr (FILE_HREF v) (files v m) -> get_attr nf (FILE_HREF v) = Some name ->
  (forall e, In e (A ++ B) -> get_attr e (FILE_HREF v) <> Some name) ->
  m_sources m' = dset str_eqb name dir
    (match ox with
     | Some x => match get_attr x (FILE_HREF v) with Some h => ddel str_eqb h (m_sources m) | None => m_sources m end
     | None => m_sources m end) ->
  (sourced v m -> sourced v m') /\ same_sources v m m' name.
Proof.
  intros v m m' name dir ox A B nf F1 F2 U Hn UH S.
  assert (K : forall h, h <> name -> (forall x, ox = Some x -> get_attr x (FILE_HREF v) <> Some h) -> dget str_eqb h (m_sources m') = dget str_eqb h (m_sources m)).
  { intros h Nh Nx. rewrite S, (dget_dset_other str_eqb str_eqb_eq) by exact Nh. destruct ox as [x|]; [|reflexivity].
    destruct (get_attr x (FILE_HREF v)) as [hx|] eqn:Ex; [|reflexivity]. apply (dget_ddel_other str_eqb str_eqb_eq). intros ->. now apply (Nx x). }
  assert (R : forall e h, In e (A ++ B) -> get_attr e (FILE_HREF v) = Some h -> forall x, ox = Some x -> get_attr x (FILE_HREF v) <> Some h).
  { intros e h He Eh x -> Ex. revert Eh. apply (unique_rest (FILE_HREF v) A x B h e); [now rewrite <- F1|exact Ex|exact He]. }
  split.
  - intros [ND SM]. split.
    { rewrite S. apply (dset_NoDup str_eqb str_eqb_eq). destruct ox as [x|]; [|exact ND].
      destruct (get_attr x (FILE_HREF v)); [now apply (ddel_NoDup str_eqb str_eqb_eq)|exact ND]. }
    intros h. destruct (str_eq_dec h name) as [->|Nh].
    + rewrite S, (dget_dset_same str_eqb str_eqb_eq). split; [intros _|intros _; eauto]. exists nf. split; [rewrite F2; apply in_mid; now left|exact Hn].
    + split.
      * intros [d Hd].
        assert (Nx : forall x, ox = Some x -> get_attr x (FILE_HREF v) <> Some h).
        { intros x -> Ex. rewrite S, (dget_dset_other str_eqb str_eqb_eq) in Hd by exact Nh. rewrite Ex, (dget_ddel_same str_eqb str_eqb_eq) in Hd by exact ND. discriminate. }
        rewrite (K h Nh Nx) in Hd. destruct (proj1 (SM h)) as (f & Hf & Ef); [now exists d|]. exists f. split; [|exact Ef].
        rewrite F1 in Hf. apply in_one in Hf as [Hf|Hf]; [now apply Nx in Hf|]. rewrite F2. apply in_mid. now right.
      * intros (f & Hf & Ef). rewrite F2 in Hf. apply in_mid in Hf as [->|Hf]; [congruence|].
        rewrite (K h Nh (R f h Hf Ef)). apply SM. exists f. split; [rewrite F1; apply in_one; now right|exact Ef].
  - intros f h Hf Ef Nh. rewrite F2 in Hf. apply in_mid in Hf as [->|Hf]; [congruence|]. exact (K h Nh (R f h Hf Ef)).
Qed.

Theorem worker_links : forall agree E fuel guess m im dt file_id controller subtype address diskname desc m' k,
  ids_ok (e_ver E) (m_hw m) -> identified E (m_hw m) -> linked (e_ver E) m -> plain_drives E m -> plain_ids (e_ver E) m ->
  (dt = L "harddisk" -> forall x, x = im_name im \/ file_id = Some x \/ (exists f, In f (files (e_ver E) m) /\ get_attr f (FILE_ID (e_ver E)) = Some x) ->
     own_disk_id (e_ver E) m x) ->
  (dt <> L "harddisk" -> one_drive (e_ver E) m) ->
  (forall c, controller = Some c -> exists t, dget str_eqb c RES_MAP = Some t) -> (exists t, dget str_eqb (guess dt) RES_MAP = Some t) ->
  add_disk_worker agree E fuel guess m im dt file_id controller subtype address diskname desc = Ok (m', k) ->
  ids_ok (e_ver E) (m_hw m') /\ identified E (m_hw m') /\ linked (e_ver E) m' /\ plain_drives E m' /\
  (~ In "/"%char (im_name im) -> (forall s, file_id = Some s -> ~ In "/"%char s) -> plain_ids (e_ver E) m') /\
  (one_disk (e_ver E) m -> one_disk (e_ver E) m') /\
  (one_disk (e_ver E) m -> one_drive (e_ver E) m -> one_drive (e_ver E) m') /\
  exists f i s t ck ci ct,
    replaced (files (e_ver E) m) (files (e_ver E) m') f /\
    get_attr f (FILE_HREF (e_ver E)) = Some (im_name im) /\ get_attr f (FILE_SIZE (e_ver E)) = Some (zdec (im_size im)) /\
    dget str_eqb (im_name im) (m_sources m') = Some (im_dir im) /\
    (sourced (e_ver E) m -> sourced (e_ver E) m') /\ same_sources (e_ver E) m m' (im_name im) /\
    In (k, i) (m_hw m') /\ present E i None /\
    dget str_eqb dt RES_MAP = Some t /\ only_value (i_props i) RESOURCE_TYPE (VStr t) /\
    only_value (i_props i) HOST_RESOURCE (VStr s) /\ file_of (e_ver E) m' s f /\
    (dt = L "harddisk" -> exists d, replaced (disks (e_ver E) m) (disks (e_ver E) m') d /\ disk_of (e_ver E) m' s d) /\
    (dt <> L "harddisk" -> removed (disks (e_ver E) m) (disks (e_ver E) m')) /\
    only_value (i_props i) PARENT (VStr ck) /\ In (ck, ci) (m_hw m') /\ (ck <> k -> is_a ct ci) /\ (forall c, controller = Some c -> ct = c) /\
    (forall k' j, k' <> k -> k' <> ck -> (In (k', j) (m_hw m') <-> In (k', j) (m_hw m))).
Proof.
  intros agree E fuel guess m im dt file_id controller subtype address diskname desc m' k Hi Hd Hl Hp Pi HD HO HC HG H.
  apply worker_inv in H as (file & disk & ctrl0 & drive & ct & ctrl & addr & fid & m1 & fj & m2 & oj & parts & sub & m3 & ck &
    W1 & W2 & W3 & W4 & W5 & W6 & W7 & W8 & W9 & W10 & W11).
  set (v := e_ver E) in *.
  (* the search, before its results are compared *)
  assert (PRE : (forall j, file = Some j -> exists x, file_at v m j x) /\ (forall j, disk = Some j -> exists y, disk_at v m j y)).
  { unfold search_for_elements in W1.
    destruct (search_from_filename E m (Some (im_name im))) as [r1|] eqn:E1; [|discriminate]. cbn [rbind] in W1.
    destruct (search_from_file_id E m _) as [r2|] eqn:E2; [|discriminate]. cbn [rbind] in W1.
    destruct (search_from_controller E m controller address) as [r3|] eqn:E3; [|discriminate]. cbn [rbind] in W1.
    apply filename_says in E1 as [S1 _]; try assumption. apply file_id_says in E2 as [S2 _]; try assumption. apply controller_says in E3 as [S3 _]; try assumption.
    destruct r1 as [[[f1 d1] c1] i1], r2 as [[[f2 d2] c2] i2], r3 as [[[f3 d3] c3] i3].
    destruct (check_for_conflict Nat.eqb [f1; f2; f3]) as [f|] eqn:C1; [|discriminate]. cbn [rbind] in W1.
    destruct (check_for_conflict Nat.eqb [d1; d2; d3]) as [d|] eqn:C2; [|discriminate]. cbn [rbind] in W1.
    destruct (check_for_conflict str_eqb [c1; c2; c3]) as [c|]; [|discriminate]. cbn [rbind] in W1.
    destruct (check_for_conflict str_eqb [i1; i2; i3]) as [i|]; [|discriminate]. cbn [rbind] in W1. injection W1 as -> -> _ _.
    split; intros j ->.
    - apply conflict_Some in C1 as [[F|[F|[F|[]]]] _]; [exact (s_file _ _ _ S1 j F)|exact (s_file _ _ _ S2 j F)|exact (s_file _ _ _ S3 j F)|exact Nat.eqb_eq].
    - apply conflict_Some in C2 as [[F|[F|[F|[]]]] _]; [exact (s_disk _ _ _ S1 j F)|exact (s_disk _ _ _ S2 j F)|exact (s_disk _ _ _ S3 j F)|exact Nat.eqb_eq]. }
  destruct PRE as [Pf Pd].
  apply validate_spec in W5 as (V1 & V2 & V3 & V4 & V5); [|exact Pf|exact Pd]. fold v in V1, V2, V3, V4.
  destruct (elements_say E m (im_name im) file_id controller address file disk ctrl0 drive Hi Hd Hl Hp Pi W1 V2) as (S & Nh & Ni). fold v in Nh, Ni.
  destruct (file_choice v m file Pf) as [ox Hox]. destruct (disk_choice v m disk Pd) as [oy Hoy].
  (* the identifier of the file *)
  assert (FA : forall x, ox = Some x -> get_attr x (FILE_ID v) = Some fid).
  { intros x ->. destruct file as [f|]; [|contradiction]. pose proof (attr_file v m f x (FILE_ID v) Hox) as A.
    destruct (proj1 (l_file_ids _ _ Hl) x (file_at_In _ _ _ _ Hox)) as [r Hr].
    destruct W6 as [(_ & _ & F & _)|[F|[(_ & f0 & F0 & F)|(_ & F & _)]]].
    - specialize (F f eq_refl). fold v in F. congruence.
    - now apply (V1 f x fid).
    - injection F0 as <-. fold v in F. congruence.
    - specialize (F f eq_refl). fold v in F. congruence. }
  assert (FB : ox = None -> forall e, In e (files v m) -> get_attr e (FILE_ID v) <> Some fid).
  { intros -> e He F. destruct file as [f|]; [contradiction|].
    assert (X : get_attr e (FILE_ID v) = Some (match file_id with Some s => s | None => im_name im end)).
    { destruct W6 as [(-> & -> & _)|[->|[(_ & f0 & F0 & _)|(_ & _ & d & Ed & Er)]]]; [exact F|exact F|discriminate|].
      exfalso. subst disk. destruct oy as [y|]; [|contradiction]. fold v in Er. rewrite (attr_disk v m d y _ Hoy) in Er.
      pose proof (s_no_file _ _ _ S d y eq_refl eq_refl Hoy) as N. fold v in N. congruence. }
    destruct (Ni e He X) as (j & Ej & _). discriminate. }
  pose proof (add_file_spec v m im fid file disk m1 fj ox W7 Hox) as (A1 & A2 & A3 & (A & B & A4 & A5) & A6).
  set (nf := new_file v im fid) in *.
  assert (UF : forall e, In e (A ++ B) -> get_attr e (FILE_ID v) <> Some fid).
  { intros e He. destruct ox as [x|].
    - apply (unique_rest (FILE_ID v) A x B); [rewrite <- A4; apply (l_file_ids _ _ Hl)|now apply FA|exact He].
    - apply FB; [reflexivity|]. rewrite A4. apply in_one. now right. }
  assert (UH : forall e, In e (A ++ B) -> get_attr e (FILE_HREF v) <> Some (im_name im)).
  { intros e He F. destruct (Nh e) as (j & Ej & Hj); [rewrite A4; apply in_one; now right|exact F|]. subst file.
    destruct ox as [x|]; [|contradiction]. rewrite (file_at_fun _ _ _ _ _ Hj Hox) in He. now apply (UF x He), FA. }
  assert (KF : forall e r, In e (files v m) -> get_attr e (FILE_ID v) = Some r -> exists e', In e' (files v m1) /\ get_attr e' (FILE_ID v) = Some r).
  { intros e r He Hr. rewrite A5. rewrite A4 in He. apply in_one in He as [He|He].
    - exists nf. split; [apply in_mid; now left|]. rewrite <- Hr, (FA e He). apply new_file_id.
    - exists e. split; [apply in_mid; now right|exact Hr]. }
  (* the disks *)
  assert (D1 : disks v m1 = disks v m) by (unfold disks; now rewrite A1).
  assert (DA : forall j y, disk_at v m1 j y <-> disk_at v m j y) by (intros j y; unfold disk_at; now rewrite A1).
  assert (NFD : dt = L "harddisk" -> oy = None -> forall e, In e (disks v m) -> get_attr e (DISK_ID v) <> Some fid).
  { intros Edt -> e He F. destruct disk as [d|]; [contradiction|].
    assert (R : get_attr e (DISK_FILE_REF v) = Some fid).
    { apply (HD Edt fid); [|exact He|exact F]. destruct W6 as [(-> & _)|[->|[(_ & f0 & F0 & Fa)|(_ & _ & d & Ed & _)]]]; [now left|right; now left| |discriminate].
      right. right. subst file. destruct ox as [x|]; [|contradiction]. exists x. split; [now apply file_at_In in Hox|now apply FA]. }
    destruct (l_disk_files _ _ Hl e fid He R) as (g & Hg & Eg). destruct ox as [x|]; [|now apply (FB eq_refl g Hg)].
    destruct file as [f|]; [|contradiction]. apply (s_no_disk _ _ _ S f x eq_refl eq_refl Hox e He). fold v. now rewrite (FA x eq_refl). }
  assert (DK : exists C D, disks v m = C ++ one oy ++ D /\ m_refs m2 = m_refs m1 /\ m_hw m2 = m_hw m1 /\ m_sources m2 = m_sources m1 /\
    ((dt = L "harddisk" /\ exists j nd, oj = Some j /\ disk_at v m2 j nd /\ disks v m2 = C ++ nd :: D /\ get_attr nd (DISK_FILE_REF v) = Some fid /\
       get_attr nd (DISK_ID v) = match oy with Some y => get_attr y (DISK_ID v) | None => Some fid end) \/
     (dt <> L "harddisk" /\ disks v m2 = C ++ D))).
  { destruct (str_eq_dec dt (L "harddisk")) as [Edt|Ndt].
    - rewrite Edt in W8. apply (add_hard_disk fuel v m1 im fid disk m2 oj oy) in W8 as (R1 & R2 & R3 & j & nd & C & D & X1 & X2 & X3 & X4 & X5 & X6).
      + exists C, D. rewrite <- D1. split; [exact X3|]. split; [exact R1|]. split; [exact R2|]. split; [exact R3|]. left. split; [exact Edt|].
        exists j, nd. now repeat split.
      + destruct disk as [d|], oy as [y|]; try contradiction; [|exact I]. split; [now apply DA|].
        apply (l_disk_ids _ _ Hl). now apply disk_at_In in Hoy.
    - apply (add_other_disk fuel v m1 im fid dt disk m2 oj oy) in W8 as (R1 & R2 & R3 & C & D & X1 & X2); [|exact Ndt|].
      + exists C, D. rewrite <- D1. split; [exact X1|]. split; [exact R1|]. split; [exact R2|]. split; [exact R3|]. right. now split.
      + destruct disk as [d|], oy as [y|]; try contradiction; [|exact I]. now apply DA. }
  destruct DK as (C & D & D2 & R1 & R2 & R3 & DK).
  assert (F2 : files v m2 = A ++ nf :: B) by (unfold files; rewrite R1; exact A5).
  assert (HW2 : m_hw m2 = m_hw m) by congruence.
  (* the controller and the drive *)
  assert (HCk : forall c, ctrl = Some c -> exists i, In (c, i) (m_hw m2)).
  { intros c ->. rewrite HW2. destruct ctrl0 as [c0|].
    - destruct W4 as [W4 _]. injection W4 as ->. exact (s_ctrl _ _ _ S c0 eq_refl).
    - destruct address as [a0|]; [destruct W4; discriminate|]. destruct W4 as [(_ & F & _)|(k0 & a0 & Fo & F & _)]; [discriminate|].
      injection F as ->. unfold find_open_controller in Fo. destruct (find_all_items E (m_hw m) (Some ct) [] []) as [ks|] eqn:Ek; [|discriminate]. cbn [rbind] in Fo.
      apply find_all_wanted in Ek as (_ & _ & Wk); [|exact Hi|intros z []].
      pose proof (first_open_spec E m ct ks Hi Hd) as FO. rewrite Fo in FO. destruct FO as (ks1 & ks2 & ca & a1 & -> & _).
      { intros k' Hk'. apply Wk in Hk' as (j & Hj & _). now exists j. }
      destruct (proj1 (Wk k0)) as (j & Hj & _); [apply in_or_app; right; now left|]. now exists j. }
  assert (Hi2 : ids_ok (e_ver E) (m_hw m2)) by (rewrite HW2; exact Hi).
  assert (Hd2 : identified E (m_hw m2)) by (rewrite HW2; exact Hd).
  destruct (controller_stage E m2 ct sub (fst parts) ctrl m3 ck Hi2 Hd2 HCk W10) as (Q1 & Q2 & Q3 & T3 & QC).
  pose proof T3 as (Hi3 & Hd3 & T3o & ci3 & Hci3 & T3c).
  destruct (drive_stage E m3 dt (snd parts) diskname desc oj fj ck ci3 drive m' k Hi3 Hd3 Hci3 W11)
    as (P1 & P2 & P3 & T4 & i & t & host & Hin & Et & Hrt & Hhr & HH1 & HH2 & PD).
  pose proof T4 as (Hi4 & Hd4 & T4o & _).
  assert (F4 : files v m' = A ++ nf :: B) by (unfold files; rewrite P1, Q1; exact F2).
  assert (D4 : disks v m' = disks v m2) by (unfold disks; now rewrite P2, Q2).
  (* devices other than the drive *)
  assert (OLD : forall k' j, k' <> k -> In (k', j) (m_hw m') ->
     (exists j0, In (k', j0) (m_hw m) /\ i_frozen j = i_frozen j0 /\
        forall n q w, ~ In n [ADDRESS; RESOURCE_SUB_TYPE] -> ~ text_property (e_ver E) n -> (own (i_props j) n q w <-> own (i_props j0) n q w)) \/
     (forall q w, ~ own (i_props j) HOST_RESOURCE q w)).
  { intros k' j Nk Hj. apply (T4o k' j Nk) in Hj. apply (touched_back E _ ck (m_hw m2) (m_hw m3) k' j Hi2 T3) in Hj as [(j0 & J1 & J2 & J3)|(-> & _ & _ & _ & J)].
    - left. exists j0. rewrite <- HW2. now repeat split; try assumption; apply J3.
    - right. intros q w. apply J; [|apply HR_not_text]. unfold v. destruct (e_ver E); intros [X|[X|[X|[X|[]]]]]; discriminate X. }
  assert (HRN : ~ In HOST_RESOURCE [ADDRESS; RESOURCE_SUB_TYPE]) by (intros [X|[X|[]]]; discriminate X).
  assert (IIN : ~ In (INSTANCE_ID (e_ver E)) [ADDRESS; RESOURCE_SUB_TYPE]) by (unfold v; destruct (e_ver E); intros [X|[X|[]]]; discriminate X).
  assert (HOLD : forall k' j q w, k' <> k -> In (k', j) (m_hw m') -> own (i_props j) HOST_RESOURCE q w ->
     exists j0, In (k', j0) (m_hw m) /\ own (i_props j0) HOST_RESOURCE q w).
  { intros k' j q w Nk Hj Ho. destruct (OLD k' j Nk Hj) as [(j0 & J1 & _ & J3)|J]; [|now apply J in Ho].
    exists j0. split; [exact J1|]. apply J3; [exact HRN|apply HR_not_text|exact Ho]. }
  assert (SAME : forall j, In (k, j) (m_hw m') -> j = i).
  { intros j Hj. apply (hitem_In _ _ _ (proj1 Hi4)) in Hj. apply (hitem_In _ _ _ (proj1 Hi4)) in Hin. congruence. }
  assert (PRES : present E i None).
  { destruct drive as [k0|].
    - destruct PD as (-> & i3 & I3 & I3f & I3o). destruct (s_drive _ _ _ S k0 eq_refl) as [(i0 & I0 & Ip) _].
      apply (touched_back E _ ck (m_hw m2) (m_hw m3) k0 i3 Hi2 T3) in I3 as [(j0 & J1 & J2 & J3)|(-> & J & _)].
      + rewrite HW2 in J1. assert (j0 = i0) as -> by (apply (hitem_In _ _ _ (proj1 Hi)) in J1; apply (hitem_In _ _ _ (proj1 Hi)) in I0; congruence).
        apply (present_same E i3 i I3f); [intros q w; apply I3o; [destruct (e_ver E); discriminate|destruct (e_ver E); discriminate|apply IID_not_text]|].
        apply (present_same E i0 i3 J2); [intros q w; apply J3; [exact IIN|apply IID_not_text]|exact Ip].
      + exfalso. apply J. exists i0. now rewrite HW2.
    - destruct PD as (N & _). apply (touched_back E _ k (m_hw m3) (m_hw m') k i Hi3 T4) in Hin as [(j0 & J1 & _)|(_ & _ & _ & J & _)].
      + exfalso. apply N. now exists j0.
      + left. now exists (VStr k). }
  assert (HOST : (dt = L "harddisk" /\ exists nd id, In nd (disks v m') /\ disks v m' = C ++ nd :: D /\ get_attr nd (DISK_FILE_REF v) = Some fid /\
       get_attr nd (DISK_ID v) = Some id /\ host = DISK_REF v ++ id /\
       Some id = match oy with Some y => get_attr y (DISK_ID v) | None => Some fid end) \/
     (dt <> L "harddisk" /\ disks v m' = C ++ D /\ host = FILE_REF v ++ fid)).
  { destruct DK as [(Edt & j & nd & K1 & K2 & K3 & K4 & K5)|(Ndt & K)].
    - left. split; [exact Edt|]. destruct (HH1 Edt) as (j' & id & J1 & J2 & J3). rewrite K1 in J1. injection J1 as <-.
      assert (Z : disk_at v m3 j nd) by (unfold disk_at; rewrite Q2; exact K2). fold v in J2. rewrite (attr_disk v m3 j nd _ Z) in J2. injection J2 as J2.
      exists nd, id. rewrite D4. split; [rewrite K3; apply in_mid; now left|]. split; [exact K3|]. split; [exact K4|]. split; [exact J2|]. split; [exact J3|congruence].
    - right. split; [exact Ndt|]. rewrite D4. split; [exact K|]. destruct (HH2 Ndt) as (id & J1 & J2). fold v in J1, J2.
      assert (Z : file_at v m3 fj nf) by (unfold file_at; rewrite Q1, R1; exact A3). rewrite (attr_file v m3 fj nf _ Z) in J1. unfold nf in J1. rewrite new_file_id in J1. congruence. }
  (* references *)
  assert (LK : linked v m').
  { constructor.
      + rewrite F4. apply (unique_replace (FILE_ID v) A ox B nf fid); [rewrite <- A4; apply (l_file_ids _ _ Hl)|apply new_file_id|exact UF].
      + rewrite F4. apply (unique_replace (FILE_HREF v) A ox B nf (im_name im)); [rewrite <- A4; apply (l_file_names _ _ Hl)|apply new_file_href|exact UH].
      + destruct HOST as [(Edt & nd & id & K1 & K2 & K3 & K4 & K5 & K6)|(Ndt & K1 & K2)].
        * rewrite K2. apply (unique_replace (DISK_ID v) C oy D nd id); [rewrite <- D2; apply (l_disk_ids _ _ Hl)|exact K4|].
          intros e He. destruct oy as [y|]; [apply (unique_rest (DISK_ID v) C y D); [rewrite <- D2; apply (l_disk_ids _ _ Hl)|now symmetry|exact He]|].
          injection K6 as ->. apply (NFD Edt eq_refl). rewrite D2. apply in_one. now right.
        * rewrite K1. apply (unique_remove (DISK_ID v) C oy D). rewrite <- D2. apply (l_disk_ids _ _ Hl).
      + intros d r Hdd Hr. rewrite F4, <- A5.
        assert (X : get_attr d (DISK_FILE_REF v) = Some fid \/ In d (disks v m)).
        { destruct HOST as [(Edt & nd & id & K1 & K2 & K3 & K4 & _)|(Ndt & K1 & K2)].
          - rewrite K2 in Hdd. apply in_mid in Hdd as [->|Hdd]; [now left|right; rewrite D2; apply in_one; now right].
          - right. rewrite K1 in Hdd. rewrite D2. apply in_one. now right. }
        destruct X as [X|X].
        * exists nf. split; [rewrite A5; apply in_mid; now left|]. rewrite <- Hr, X. apply new_file_id.
        * destruct (l_disk_files _ _ Hl d r X Hr) as (g & Hg & Eg). now apply (KF g).
      + intros k' j p s id Hj Ho Hr. destruct (str_eq_dec k' k) as [->|Nk].
        * rewrite (SAME j Hj) in Ho. apply (proj2 Hhr) in Ho. injection Ho as ->.
          destruct HOST as [(Edt & nd & id' & K1 & K2 & K3 & K4 & -> & _)|(Ndt & K1 & ->)]; [|now apply refers_mix2 in Hr].
          apply refers_disk_own in Hr as ->. now exists nd.
        * destruct (HOLD k' j p (VStr s) Nk Hj Ho) as (j0 & J1 & J2).
          destruct (l_drive_disks _ _ Hl k' j0 p s id J1 J2 Hr) as (d & Hd' & Ed).
          rewrite D2 in Hd'. apply in_one in Hd' as [Hd'|Hd'].
          -- destruct HOST as [(Edt & nd & id' & K1 & K2 & K3 & K4 & _ & K6)|(Ndt & K1 & K2)].
             ++ exists nd. split; [exact K1|]. rewrite Hd' in K6. congruence.
             ++ exfalso. destruct disk as [dd|]; [|destruct oy; [contradiction|discriminate]]. rewrite Hd' in Hoy.
                assert (DO : disk_of v m s d) by (split; [now apply disk_at_In in Hoy|now exists id]).
                assert (DR : drive_ref m k' s) by now exists j0, p.
                destruct (s_disk_drive _ _ _ S dd d s k' eq_refl Hoy DR DO) as (k2 & s2 & X1 & (j2 & p2 & X2 & X2') & X3). cbn [snd] in X1.
                assert (k2 = k').
                { apply (HO Ndt k2 j2 p2 s2 k' j0 p s X2 X2' J1 J2). destruct X3 as [X3|(g & X3 & X4)]; [left; now exists d|].
                  right. exists g. split; [exact X3|]. destruct X3 as (X5 & gid & X6 & _). split; [exact X5|]. exists gid. split; [exact X6|]. right.
                  exists d. split; [exact DO|]. fold v in X4, X6. congruence. }
                subst k2 drive. destruct PD as [E0 _]. congruence.
          -- exists d. split; [|exact Ed]. destruct HOST as [(Edt & nd & id' & K1 & K2 & _)|(Ndt & K1 & K2)].
             ++ rewrite K2. apply in_mid. now right.
             ++ now rewrite K1.
      + intros k' j p s id Hj Ho Hr. rewrite F4, <- A5. destruct (str_eq_dec k' k) as [->|Nk].
        * rewrite (SAME j Hj) in Ho. apply (proj2 Hhr) in Ho. injection Ho as ->.
          destruct HOST as [(Edt & nd & id' & K1 & K2 & K3 & K4 & -> & _)|(Ndt & K1 & ->)]; [now apply refers_mix1 in Hr|].
          apply refers_file_own in Hr as ->. exists nf. split; [rewrite A5; apply in_mid; now left|apply new_file_id].
        * destruct (HOLD k' j p (VStr s) Nk Hj Ho) as (j0 & J1 & J2).
          destruct (l_drive_files _ _ Hl k' j0 p s id J1 J2 Hr) as (g & Hg & Eg). now apply (KF g). }
  (* disks and files that are shared *)
  assert (ND : one_disk v m -> forall d, In d (C ++ D) -> get_attr d (DISK_FILE_REF v) <> Some fid).
  { intros OD d Hdd Ed. assert (Hm : In d (disks v m)) by (rewrite D2; apply in_one; now right).
    destruct (l_disk_files _ _ Hl d fid Hm Ed) as (g & Hg & Eg). destruct ox as [x|]; [|now apply (FB eq_refl g Hg)].
    destruct file as [f|]; [|contradiction]. destruct disk as [dd|].
    - destruct oy as [y|]; [|contradiction]. pose proof (V2 f dd x y eq_refl eq_refl Hox Hoy) as Ey. rewrite (FA x eq_refl) in Ey.
      assert (y = d) as -> by (apply (OD y d fid); [now apply disk_at_In in Hoy|exact Hm|exact Ey|exact Ed]).
      destruct (proj1 (l_disk_ids _ _ Hl) d Hm) as [did Edid]. refine (unique_rest (DISK_ID v) C d D did d _ Edid Hdd Edid). rewrite <- D2. apply (l_disk_ids _ _ Hl).
    - apply (s_no_disk _ _ _ S f x eq_refl eq_refl Hox d Hm). fold v. now rewrite (FA x eq_refl). }
  assert (T1 : one_drive v m -> forall k' j p s nd, k' <> k -> In (k', j) (m_hw m') -> own (i_props j) HOST_RESOURCE p (VStr s) ->
     disks v m' = C ++ nd :: D -> dt = L "harddisk" -> ~ disk_of v m' s nd).
  { intros OR k' j p s nd Nk Hj Ho End Edt (Hnd & id & Eid & Er). destruct HOST as [(_ & nd' & id' & K1 & K2 & K3 & K4 & K5 & K6)|(Ndt & _)]; [|contradiction].
    assert (nd' = nd) as -> by (rewrite K2 in End; apply app_inv_head in End; congruence). assert (id' = id) as -> by congruence.
    destruct (HOLD k' j p (VStr s) Nk Hj Ho) as (j0 & J1 & J2).
    destruct (l_drive_disks _ _ Hl k' j0 p s id J1 J2 Er) as (d & Hd' & Ed). fold v in Hd', Ed. destruct oy as [y|].
    - destruct disk as [dd|]; [|contradiction].
      assert (d = y) as -> by (apply (unique_same _ _ _ _ _ (l_disk_ids _ _ Hl) Hd' (disk_at_In _ _ _ _ Hoy) Ed (eq_sym K6))).
      assert (DO : disk_of v m s y) by (split; [exact Hd'|now exists id]).
      assert (DR : drive_ref m k' s) by now exists j0, p.
      destruct (s_disk_drive _ _ _ S dd y s k' eq_refl Hoy DR DO) as (k2 & s2 & X1 & (j2 & p2 & X2 & X2') & X3). cbn [snd] in X1.
      assert (k2 = k').
      { apply (OR k2 j2 p2 s2 k' j0 p s X2 X2' J1 J2). destruct X3 as [X3|(g & X3 & X4)]; [left; now exists y|].
        right. exists g. split; [exact X3|]. destruct X3 as (X5 & gid & X6 & _). split; [exact X5|]. exists gid. split; [exact X6|]. right.
        exists y. split; [exact DO|]. fold v in X4, X6. congruence. }
      subst k2 drive. destruct PD as [E0 _]. congruence.
    - injection K6 as K6. apply (NFD Edt eq_refl d Hd'). congruence. }
  assert (DSPLIT : forall d, In d (disks v m') -> In d (C ++ D) \/ (dt = L "harddisk" /\ disks v m' = C ++ d :: D)).
  { intros d Hdd. destruct HOST as [(Edt & nd & id & K1 & K2 & _)|(Ndt & K1 & _)]; [|left; now rewrite <- K1].
    pose proof Hdd as Hdd'. rewrite K2 in Hdd'. apply in_mid in Hdd' as [->|Hdd']; [right; now split|now left]. }
  assert (T2 : one_disk v m -> one_drive v m -> forall k' j p s, k' <> k -> In (k', j) (m_hw m') -> own (i_props j) HOST_RESOURCE p (VStr s) -> ~ file_of v m' s nf).
  { intros OD OR k' j p s Nk Hj Ho (_ & id & Eid & Er). unfold nf in Eid. rewrite new_file_id in Eid. injection Eid as <-.
    destruct Er as [Er|(d & Hdd & Ed)].
    - destruct (HOLD k' j p (VStr s) Nk Hj Ho) as (j0 & J1 & J2).
      destruct (l_drive_files _ _ Hl k' j0 p s fid J1 J2 Er) as (g & Hg & Eg). destruct ox as [x|]; [|now apply (FB eq_refl g Hg)].
      destruct file as [f|]; [|contradiction]. assert (DR : drive_ref m k' s) by now exists j0, p.
      destruct (s_file_drive _ _ _ S f x s k' fid eq_refl Hox DR (FA x eq_refl) Er) as (k2 & s2 & X1 & (j2 & p2 & X2 & X2') & X3). cbn [snd] in X1.
      assert (k2 = k').
      { apply (OR k2 j2 p2 s2 k' j0 p s X2 X2' J1 J2). right. exists x. split; [exact X3|]. split; [now apply file_at_In in Hox|]. exists fid. split; [now apply FA|now left]. }
      subst k2 drive. destruct PD as [E0 _]. congruence.
    - destruct (DSPLIT d (proj1 Hdd)) as [Hc|[Edt Hc]]; [now apply (ND OD d Hc)|]. now apply (T1 OR k' j p s d). }
  split; [exact Hi4|]. split; [exact Hd4|]. split; [exact LK|]. split; [|split; [|split; [|split]]].
  (* one HostResource each *)
  - intros k' j Hj. destruct (str_eq_dec k' k) as [->|Nk].
    + rewrite (SAME j Hj). split; [|intros; exact PRES]. intros p q a b Ha Hb'. rewrite (proj2 Hhr p a Ha), (proj2 Hhr q b Hb'). reflexivity.
    + destruct (OLD k' j Nk Hj) as [(j0 & J1 & J2 & J3)|J].
      * destruct (Hp k' j0 J1) as [Z1 Z2]. split.
        -- intros p q a b Ha Hb'. apply J3 in Ha; [|exact HRN|apply HR_not_text]. apply J3 in Hb'; [|exact HRN|apply HR_not_text]. now apply (Z1 p q).
        -- intros p a Ha. apply J3 in Ha; [|exact HRN|apply HR_not_text].
           apply (present_same E j0 j J2); [intros q w; apply J3; [exact IIN|apply IID_not_text]|]. now apply (Z2 p a).
      * split; [intros p q a b Ha; now apply J in Ha|intros p a Ha; now apply J in Ha].
  (* no slash *)
  - intros Ns Nf.
    assert (NFID : ~ In "/"%char fid).
    { destruct W6 as [(-> & _)|[E0|[(_ & f0 & -> & Fa)|(_ & Fn & d & -> & Er)]]]; [exact Ns|now apply Nf| |].
      - destruct ox as [x|]; [|contradiction]. apply (proj1 Pi x); [now apply file_at_In in Hox|now apply FA].
      - destruct oy as [y|]; [|contradiction]. fold v in Er. rewrite (attr_disk v m d y _ Hoy) in Er. injection Er as Er.
        destruct (l_disk_files _ _ Hl y fid (disk_at_In _ _ _ _ Hoy) Er) as (g & Hg & Eg). now apply (proj1 Pi g). }
    split.
    + intros f0 id Hf Eid. rewrite F4 in Hf. apply in_mid in Hf as [->|Hf].
      * unfold nf in Eid. fold v in Eid. rewrite new_file_id in Eid. congruence.
      * apply (proj1 Pi f0); [rewrite A4; apply in_one; now right|exact Eid].
    + intros d id Hdd Eid. fold v in Hdd, Eid. destruct (DSPLIT d Hdd) as [Hc|[Edt Hc]]; [apply (proj2 Pi d); [rewrite D2; apply in_one; now right|exact Eid]|].
      destruct HOST as [(_ & nd' & id' & K1 & K2 & K3 & K4 & K5 & K6)|(Ndt & _)]; [|contradiction].
      assert (nd' = d) as -> by (rewrite K2 in Hc; apply app_inv_head in Hc; congruence). assert (id' = id) as -> by congruence.
      destruct oy as [y|]; [|congruence]. destruct disk as [dd|]; [|contradiction]. apply (proj2 Pi y); [now apply disk_at_In in Hoy|now symmetry].
  (* one disk *)
  - intros OD d d' r H1 H2 E1 E2. fold v in H1, H2, E1, E2.
    assert (UNI : forall a b, In a (disks v m') -> In b (disks v m') -> disks v m' = C ++ a :: D -> disks v m' = C ++ b :: D -> a = b).
    { intros a b _ _ X1 X2. rewrite X1 in X2. apply app_inv_head in X2. congruence. }
    assert (REF : forall a, In a (disks v m') -> disks v m' = C ++ a :: D -> dt = L "harddisk" -> get_attr a (DISK_FILE_REF v) = Some fid).
    { intros a Ha X Edt. destruct HOST as [(_ & nd' & id' & K1 & K2 & K3 & _)|(Ndt & _)]; [|contradiction].
      rewrite K2 in X. apply app_inv_head in X. congruence. }
    destruct (DSPLIT d H1) as [C1|[Edt C1]], (DSPLIT d' H2) as [C2|[Edt' C2]].
    + apply (OD d d' r); try assumption; rewrite D2; apply in_one; now right.
    + exfalso. apply (ND OD d C1). rewrite E1, <- E2. now apply REF.
    + exfalso. apply (ND OD d' C2). rewrite E2, <- E1. now apply REF.
    + now apply UNI.
  (* one drive *)
  - intros OD OR.
    assert (B1 : forall k' j p s d, k' <> k -> In (k', j) (m_hw m') -> own (i_props j) HOST_RESOURCE p (VStr s) -> disk_of v m' s d -> disk_of v m s d).
    { intros k' j p s d Nk Hj Ho Hdd. pose proof Hdd as (X1 & X2). split; [|exact X2].
      destruct (DSPLIT d X1) as [Hc|[Edt Hc]]; [rewrite D2; apply in_one; now right|]. exfalso. now apply (T1 OR k' j p s d). }
    assert (B2 : forall k' j p s f0, k' <> k -> In (k', j) (m_hw m') -> own (i_props j) HOST_RESOURCE p (VStr s) -> file_of v m' s f0 -> file_of v m s f0).
    { intros k' j p s f0 Nk Hj Ho Hf. pose proof Hf as (X1 & id & X2 & X3). rewrite F4 in X1. apply in_mid in X1 as [->|X1]; [exfalso; now apply (T2 OD OR k' j p s)|].
      split; [rewrite A4; apply in_one; now right|]. exists id. split; [exact X2|]. destruct X3 as [X3|(d & X3 & X4)]; [now left|right]. exists d. split; [|exact X4]. now apply (B1 k' j p s). }
    assert (B3 : forall p s, own (i_props i) HOST_RESOURCE p (VStr s) -> (forall d, disk_of v m' s d -> dt = L "harddisk" /\ disks v m' = C ++ d :: D) /\ (forall f0, file_of v m' s f0 -> f0 = nf)).
    { intros p s Ho. apply (proj2 Hhr) in Ho. injection Ho as ->.
      destruct HOST as [(Edt & nd & id & K1 & K2 & K3 & K4 & -> & K6)|(Ndt & K1 & ->)].
      - assert (Y : forall d, disk_of v m' (DISK_REF v ++ id) d -> d = nd).
        { intros d (X1 & id' & X2 & X3). apply refers_disk_own in X3 as ->. exact (unique_same _ _ _ _ _ (l_disk_ids _ _ LK) X1 K1 X2 K4). }
        split; [intros d Hdd; rewrite (Y d Hdd); now split|]. intros f0 (X1 & gid & X2 & [X3|(d & X3 & X4)]); [now apply refers_mix1 in X3|].
        rewrite (Y d X3), K3 in X4. injection X4 as <-. apply (unique_same (FILE_ID v) (files v m') f0 nf fid (l_file_ids _ _ LK) X1); [rewrite F4; apply in_mid; now left|exact X2|apply new_file_id].
      - split; [intros d (_ & id' & _ & X3); now apply refers_mix2 in X3|]. intros f0 (X1 & gid & X2 & [X3|(d & (_ & id' & _ & X3) & _)]); [|now apply refers_mix2 in X3].
        apply refers_file_own in X3 as ->. apply (unique_same (FILE_ID v) (files v m') f0 nf fid (l_file_ids _ _ LK) X1); [rewrite F4; apply in_mid; now left|exact X2|apply new_file_id]. }
    assert (B4 : forall p s k' j p' s', own (i_props i) HOST_RESOURCE p (VStr s) -> k' <> k -> In (k', j) (m_hw m') -> own (i_props j) HOST_RESOURCE p' (VStr s') ->
      ~ ((exists d, disk_of v m' s d /\ disk_of v m' s' d) \/ (exists f0, file_of v m' s f0 /\ file_of v m' s' f0))).
    { intros p s k' j p' s' Ho Nk Hj Ho' [(d & X1 & X2)|(f0 & X1 & X2)].
      - apply (proj1 (B3 p s Ho)) in X1 as [X1 X3]. now apply (T1 OR k' j p' s' d).
      - apply (proj2 (B3 p s Ho)) in X1 as ->. now apply (T2 OD OR k' j p' s'). }
    intros k1 i1 p1 s1 k2 i2 p2 s2 H1 O1 H2 O2 SH. fold v in SH.
    destruct (str_eq_dec k1 k) as [->|N1], (str_eq_dec k2 k) as [->|N2]; [reflexivity| | |].
    + exfalso. rewrite (SAME i1 H1) in O1. now apply (B4 p1 s1 k2 i2 p2 s2).
    + exfalso. rewrite (SAME i2 H2) in O2. apply (B4 p2 s2 k1 i1 p1 s1 O2 N1 H1 O1).
      destruct SH as [(d & X1 & X2)|(f0 & X1 & X2)]; [left; now exists d|right; now exists f0].
    + destruct (HOLD k1 i1 p1 (VStr s1) N1 H1 O1) as (j1 & J1 & J1'). destruct (HOLD k2 i2 p2 (VStr s2) N2 H2 O2) as (j2 & J2 & J2').
      apply (OR k1 j1 p1 s1 k2 j2 p2 s2 J1 J1' J2 J2'). destruct SH as [(d & X1 & X2)|(f0 & X1 & X2)].
      * left. exists d. split; [now apply (B1 k1 i1 p1 s1)|now apply (B1 k2 i2 p2 s2)].
      * right. exists f0. split; [now apply (B2 k1 i1 p1 s1)|now apply (B2 k2 i2 p2 s2)].
  (* the chain *)
  - destruct (T4) as (_ & _ & _ & _). 
    assert (CK : exists ci, In (ck, ci) (m_hw m') /\ (ck <> k -> is_a ct ci)).
    { assert (I3 : is_a ct ci3).
      { destruct ctrl as [c|].
        - destruct QC as (-> & QC). destruct (HCk c eq_refl) as [c2 Hc2].
          assert (KT : exists t, dget str_eqb ct RES_MAP = Some t).
          { destruct controller as [c'|]; [rewrite (W2 c' eq_refl); now apply HC|]. specialize (W3 eq_refl). unfold guess_controller_type in W3.
            destruct ctrl0 as [c0|]; [|injection W3 as <-; exact HG].
            destruct (hardware_type E m c0) as [h0|]; [|discriminate]. cbn [rbind] in W3. destruct (mem_str h0 _) eqn:Em; [|discriminate]. injection W3 as ->.
            unfold mem_str in Em. apply existsb_exists in Em as (z & Hz & Ez). apply str_eqb_eq in Ez as <-.
            destruct Hz as [<-|[<-|[<-|[]]]]; eexists; vm_compute; reflexivity. }
          destruct KT as [tt0 KT]. rewrite HW2 in Hc2.
          pose proof (hardware_type_is_a E m c c2 ct tt0 Hi Hc2 KT (V5 c eq_refl)) as (t1 & X1 & X2). exists t1. split; [exact X1|].
          apply (only_moved c2); [|exact X2]. intros q u. apply QC; [rewrite HW2; exact Hc2|exact Hci3|discriminate|apply RT_not_text].
        - destruct QC as (i0 & a & X1 & _ & X2 & _). assert (i0 = ci3) as <-; [|exact X2].
          apply (hitem_In _ _ _ (proj1 Hi3)) in X1. apply (hitem_In _ _ _ (proj1 Hi3)) in Hci3. congruence. }
      destruct (str_eq_dec ck k) as [->|Nck].
      - exists i. split; [exact Hin|]. intros F. contradiction.
      - exists ci3. split; [now apply T4o|]. now intros _. }
    destruct CK as (ci & Hci & Hcia).
    exists nf, i, host, t, ck, ci, ct.
    split; [exists A, (one ox), B; rewrite A4, F4; split; [reflexivity|]; split; [apply one_length|reflexivity]|].
    split; [apply new_file_href|]. split; [apply new_file_size|].
    split. { rewrite P3, Q3, R3, A6. rewrite (dget_dset_same str_eqb str_eqb_eq). reflexivity. }
    assert (SRC : (sourced v m -> sourced v m') /\ same_sources v m m' (im_name im)).
    { apply (sources_added v m m' (im_name im) (im_dir im) ox A B nf A4 F4); [apply (l_file_names _ _ Hl)|apply new_file_href|exact UH|now rewrite P3, Q3, R3]. }
    split; [exact (proj1 SRC)|]. split; [exact (proj2 SRC)|].
    split; [exact Hin|]. split; [exact PRES|]. split; [exact Et|]. split; [exact Hrt|]. split; [exact Hhr|].
    assert (NFin : In nf (files v m')) by (rewrite F4; apply in_mid; now left).
    split.
    { split; [exact NFin|]. exists fid. split; [apply new_file_id|].
      destruct HOST as [(Edt & nd & id & K1 & K2 & K3 & K4 & -> & _)|(Ndt & K1 & ->)]; [right|left; now left].
      exists nd. split; [|exact K3]. split; [exact K1|]. exists id. split; [exact K4|now left]. }
    split.
    { intros Edt. destruct HOST as [(_ & nd & id & K1 & K2 & K3 & K4 & -> & _)|(Ndt & _)]; [|contradiction].
      exists nd. split; [exists C, (one oy), D; rewrite D2, K2; split; [reflexivity|]; split; [apply one_length|reflexivity]|].
      split; [exact K1|]. exists id. split; [exact K4|now left]. }
    split.
    { intros Ndt. destruct HOST as [(Edt & _)|(_ & K1 & _)]; [contradiction|]. exists C, (one oy), D. rewrite D2, K1. split; [reflexivity|]. split; [apply one_length|reflexivity]. }
    split.
    { destruct drive as [k0|]; [|exact (proj1 (proj2 PD))].
      destruct PD as (-> & i3 & I3 & I3f & I3o). destruct (s_drive _ _ _ S k0 eq_refl) as [(i0 & I0 & Ip) [c0 Hc0]]. cbn [fst snd] in Hc0. subst ctrl0.
      destruct W4 as [-> _]. destruct QC as (-> & _). destruct (HCk c0 eq_refl) as [c2 Hc2]. rewrite HW2 in Hc2.
      destruct (value_of_only E m k0 i0 PARENT Hi I0 (PARENT_not_text E)) as (o & Eo & Ho).
      pose proof (V4 k0 c0 o _ eq_refl eq_refl Eo (value_of_id E m c0 c2 Hi Hd Hc2)) as ->. 
      assert (OP : only_value (i_props i0) PARENT (VStr c0)) by now apply Ho.
      apply (only_moved i3); [intros q u; apply I3o; [discriminate..|apply PARENT_not_text]|].
      apply (touched_back E _ c0 (m_hw m2) (m_hw m3) k0 i3 Hi2 T3) in I3 as [(j0 & J1 & J2 & J3)|(-> & J & _)].
      - rewrite HW2 in J1. assert (j0 = i0) as -> by (apply (hitem_In _ _ _ (proj1 Hi)) in J1; apply (hitem_In _ _ _ (proj1 Hi)) in I0; congruence).
        apply (only_moved i0); [|exact OP]. intros q u. apply J3; [intros [X|[X|[]]]; discriminate X|apply PARENT_not_text].
      - exfalso. apply J. exists i0. now rewrite HW2. }
    split; [exact Hci|]. split; [exact Hcia|]. split; [exact W2|].
    intros k' j N1 N2. rewrite (T4o k' j N1), (T3o k' j N2), HW2. reflexivity.
Qed.
