(** Proofs about the questions that add-disk, add-file and remove-file ask. *)
From Coq Require Import Lia ZArith.
From Verif Require Import PyBase PyBaseProofs PyDict PyDictProofs XmlModel NamesModel ItemModel ItemSpec HardwareModel HardwareSpec HardwareProofs HardwareIdProofs PsetProofs
  CountSpec FindSpec FindProofs CountProofs RawModel NetworkModel ValidationModel DriveModel DriveSpec SlotProofs DeviceProofs LinkProofs SearchProofs AddProofs WorkerProofs AddDiskProofs RemoveProofs.
Local Open Scope nat_scope.

Lemma confirmed : forall agree p, confirm_or_die agree p = Ok tt -> agree p = true.
Proof. intros agree p H. unfold confirm_or_die in H. now destruct (agree p). Qed.

Lemma asked : forall agree E m file path disk drive dt ct ctrl subtype,
  confirm_elements agree E m file path disk drive dt ct ctrl subtype = Ok tt ->
  (forall f, file = Some f -> exists href, attr_at (m_refs m) f (FILE_HREF (e_ver E)) = Ok href /\ agree (ReplaceFile href path) = true) /\
  (file = None -> disk <> None \/ drive <> None -> agree (FillEmptyDrive dt) = true) /\
  (forall k, drive = Some k -> exists t, hardware_type E m k = Ok t /\ (t = dt \/ agree (ChangeDrive t dt) = true)) /\
  (ctrl = None -> agree (AddController ct) = true) /\
  (forall k s, ctrl = Some k -> subtype = Some s -> value_of E m k RESOURCE_SUB_TYPE = Ok None \/
     exists c, value_of E m k RESOURCE_SUB_TYPE = Ok (Some c) /\ (c = VStr s \/ agree (ChangeSubtype ct c (VStr s)) = true)).
Proof.
  intros agree E m file path disk drive dt ct ctrl subtype H. unfold confirm_elements in H.
  match type of H with rbind ?r _ = _ => destruct r as [[]|] eqn:E1; [|discriminate] end. cbn [rbind] in H.
  match type of H with rbind ?r _ = _ => destruct r as [[]|] eqn:E2; [|discriminate] end. cbn [rbind] in H.
  split; [|split; [|split; [|split]]].
  - intros f ->. destruct (attr_at (m_refs m) f _) as [href|]; [|discriminate]. exists href. split; [reflexivity|]. cbn [rbind] in E1. now apply confirmed.
  - intros -> HD. destruct disk; [now apply confirmed|]. destruct drive; [now apply confirmed|]. destruct HD as [F|F]; now elim F.
  - intros k ->. destruct (hardware_type E m k) as [t|]; [|discriminate]. cbn [rbind] in E2. exists t. split; [reflexivity|].
    destruct (str_eqb t dt) eqn:Et; [left; now apply str_eqb_eq|right; now apply confirmed].
  - intros ->. now apply confirmed.
  - intros k s -> ->. destruct (value_of E m k RESOURCE_SUB_TYPE) as [[c|]|]; [|now left|discriminate]. cbn [rbind] in H. right. exists c. split; [reflexivity|].
    destruct (value_eqb c (VStr s)) eqn:Ec; [left; now apply PsetProofs.value_eqb_eq|right; now apply confirmed].
Qed.

Lemma searched : forall E m name file_id controller address file disk ctrl drive,
  ids_ok (e_ver E) (m_hw m) -> identified E (m_hw m) -> linked (e_ver E) m -> plain_drives E m -> plain_ids (e_ver E) m ->
  search_for_elements E m name file_id controller address = Ok (file, disk, ctrl, drive) ->
  (forall j, file = Some j -> exists x, file_at (e_ver E) m j x) /\ (forall j, disk = Some j -> exists y, disk_at (e_ver E) m j y).
Proof.
  intros E m name file_id controller address file disk ctrl drive Hi Hd Hl Hp Pi W1. unfold search_for_elements in W1.
  destruct (search_from_filename E m (Some name)) as [r1|] eqn:E1; [|discriminate]. cbn [rbind] in W1.
  destruct (search_from_file_id E m _) as [r2|] eqn:E2; [|discriminate]. cbn [rbind] in W1.
  destruct (search_from_controller E m controller address) as [r3|] eqn:E3; [|discriminate]. cbn [rbind] in W1.
  apply filename_says in E1 as [S1 _]; try assumption. apply file_id_says in E2 as [S2 _]; try assumption. apply controller_says in E3 as [S3 _]; try assumption.
  destruct r1 as [[[f1 d1] c1] i1], r2 as [[[f2 d2] c2] i2], r3 as [[[f3 d3] c3] i3].
  destruct (check_for_conflict Nat.eqb [f1; f2; f3]) as [f|] eqn:C1; [|discriminate]. cbn [rbind] in W1.
  destruct (check_for_conflict Nat.eqb [d1; d2; d3]) as [d|] eqn:C2; [|discriminate]. cbn [rbind] in W1.
  destruct (check_for_conflict str_eqb [c1; c2; c3]) as [c|]; [|discriminate]. cbn [rbind] in W1.
  destruct (check_for_conflict str_eqb [i1; i2; i3]) as [i|]; [|discriminate]. cbn [rbind] in W1. injection W1 as -> -> _ _.
  split; intros j ->.
  - apply conflict_Some in C1 as [[F|[F|[F|[]]]] _]; [exact (s_file _ _ _ S1 j F)|exact (s_file _ _ _ S2 j F)|exact (s_file _ _ _ S3 j F)|exact Nat.eqb_eq].
  - apply conflict_Some in C2 as [[F|[F|[F|[]]]] _]; [exact (s_disk _ _ _ S1 j F)|exact (s_disk _ _ _ S2 j F)|exact (s_disk _ _ _ S3 j F)|exact Nat.eqb_eq].
Qed.

Theorem add_disk_asked : forall agree E fuel guess m im dt file_id controller subtype address diskname desc m' k,
  orderly E m ->
  add_disk_worker agree E fuel guess m im dt file_id controller subtype address diskname desc = Ok (m', k) ->
  (forall f, In f (files (e_ver E) m) -> ~ In f (files (e_ver E) m') -> agree (ReplaceFile (get_attr f (FILE_HREF (e_ver E))) (im_name im)) = true) /\
  ((exists d, In d (disks (e_ver E) m) /\ ~ In d (disks (e_ver E) m')) \/ taken (m_hw m) k ->
     (exists f, In f (files (e_ver E) m) /\ agree (ReplaceFile (get_attr f (FILE_HREF (e_ver E))) (im_name im)) = true) \/ agree (FillEmptyDrive dt) = true) /\
  (forall i, In (k, i) (m_hw m) -> ~ is_a dt i -> exists t, agree (ChangeDrive t dt) = true) /\
  (forall k', taken (m_hw m') k' -> ~ taken (m_hw m) k' -> k' <> k -> exists ct, agree (AddController ct) = true) /\
  (forall k' i i', In (k', i) (m_hw m) -> In (k', i') (m_hw m') -> k' <> k -> i' <> i ->
     exists s, subtype = Some s /\ (value_of E m k' RESOURCE_SUB_TYPE = Ok None \/
       exists ct c, value_of E m k' RESOURCE_SUB_TYPE = Ok (Some c) /\ (c = VStr s \/ agree (ChangeSubtype ct c (VStr s)) = true))).
Proof.
  intros agree E fuel guess m im dt file_id controller subtype address diskname desc m' k [Hi Hd Hl Hp Pi _ _ _] H.
  change (ids_ok (e_ver E) (m_hw m)) in Hi.
  unfold add_disk_worker in H. set (v := e_ver E) in *.
  destruct (search_for_elements E m (im_name im) file_id controller address) as [[[[file disk] ctrl0] drive]|] eqn:E1; [|discriminate]. cbn [rbind] in H.
  match type of H with rbind ?r _ = _ => destruct r as [ct|] eqn:E2; [|discriminate] end. cbn [rbind] in H.
  match type of H with rbind ?r _ = _ => destruct r as [[ctrl addr]|] eqn:E3; [|discriminate] end. cbn [rbind] in H.
  match type of H with rbind ?r _ = _ => destruct r as [[]|] eqn:E4; [|discriminate] end. cbn [rbind] in H.
  match type of H with rbind ?r _ = _ => destruct r as [[]|] eqn:E5; [|discriminate] end. cbn [rbind] in H.
  match type of H with rbind ?r _ = _ => destruct r as [id1|] eqn:E6; [|discriminate] end. cbn [rbind] in H.
  match type of H with rbind ?r _ = _ => destruct r as [id2|] eqn:E7; [|discriminate] end. cbn [rbind] in H.
  match type of H with rbind ?r _ = _ => destruct r as [[m1 fj]|] eqn:E8; [|discriminate] end. cbn [rbind fst snd] in H.
  match type of H with rbind ?r _ = _ => destruct r as [[m2 oj]|] eqn:E9; [|discriminate] end. cbn [rbind fst snd] in H.
  match type of H with rbind ?r _ = _ => destruct r as [parts|] eqn:E10; [|discriminate] end. cbn [rbind] in H.
  match type of H with rbind ?r _ = _ => destruct r as [sub|] eqn:E11; [|discriminate] end. cbn [rbind] in H.
  match type of H with rbind ?r _ = _ => destruct r as [[m3 ck]|] eqn:E12; [|discriminate] end. cbn [rbind fst snd] in H.
  set (fid := match id2 with Some s => s | None => im_name im end) in *.
  destruct (searched E m _ _ _ _ _ _ _ _ Hi Hd Hl Hp Pi E1) as [Pf Pd].
  pose proof (validate_spec _ _ _ _ _ _ _ _ Pf Pd E4) as (_ & V2 & _ & _ & V5).
  destruct (elements_say E m (im_name im) file_id controller address file disk ctrl0 drive Hi Hd Hl Hp Pi E1 V2) as (S & _ & _).
  destruct (asked _ _ _ _ _ _ _ _ _ _ _ E5) as (Q1 & Q2 & Q3 & Q4 & Q5).
  destruct (file_choice v m file Pf) as [ox Hox]. destruct (disk_choice v m disk Pd) as [oy Hoy].
  pose proof (add_file_spec v m im fid file disk m1 fj ox E8 Hox) as (A1 & A2 & A3 & (A & B & A4 & A5) & A6).
  assert (D1 : disks v m1 = disks v m) by (unfold disks; now rewrite A1).
  assert (DA : forall j y, disk_at v m1 j y <-> disk_at v m j y) by (intros j y; unfold disk_at; now rewrite A1).
  assert (DK : m_refs m2 = m_refs m1 /\ m_hw m2 = m_hw m1 /\ (disk = None -> forall d, In d (disks v m) -> In d (disks v m2))).
  { destruct (str_eq_dec dt (L "harddisk")) as [Edt|Ndt].
    - rewrite Edt in E9. apply (add_hard_disk fuel v m1 im fid disk m2 oj oy) in E9 as (R1 & R2 & R3 & j & nd & C & D & X1 & X2 & X3 & X4 & X5 & X6).
      + split; [exact R1|]. split; [exact R2|]. intros -> d. destruct oy as [y|]; [contradiction|]. rewrite <- D1, X3, X4. cbn [one app]. rewrite !in_app_iff. cbn [In]. tauto.
      + destruct disk as [d|], oy as [y|]; try contradiction; [|exact I]. split; [now apply DA|]. apply (l_disk_ids _ _ Hl). now apply disk_at_In in Hoy.
    - apply (add_other_disk fuel v m1 im fid dt disk m2 oj oy) in E9 as (R1 & R2 & R3 & C & D & X1 & X2); [|exact Ndt|].
      + split; [exact R1|]. split; [exact R2|]. intros -> d. destruct oy as [y|]; [contradiction|]. now rewrite <- D1, X1, X2.
      + destruct disk as [d|], oy as [y|]; try contradiction; [|exact I]. now apply DA. }
  destruct DK as (R1 & R2 & DK).
  assert (HW2 : m_hw m2 = m_hw m) by congruence.
  assert (HCk : forall c, ctrl = Some c -> exists i, In (c, i) (m_hw m2)).
  { intros c ->. rewrite HW2. pose proof (V5 c eq_refl) as T. unfold hardware_type, value_of in T.
    destruct (hitem c (m_hw m)) as [i|] eqn:Ei; [|discriminate T]. exists i. now apply (hitem_In _ _ _ (proj1 Hi)). }
  assert (Hi2 : ids_ok (e_ver E) (m_hw m2)) by (rewrite HW2; exact Hi).
  assert (Hd2 : identified E (m_hw m2)) by (rewrite HW2; exact Hd).
  destruct (controller_stage E m2 ct sub (fst parts) ctrl m3 ck Hi2 Hd2 HCk E12) as (W1 & W2 & W3 & T3 & QC).
  pose proof T3 as (Hi3 & Hd3 & T3o & ci3 & Hci3 & T3c).
  destruct (drive_stage E m3 dt (snd parts) diskname desc oj fj ck ci3 drive m' k Hi3 Hd3 Hci3 H)
    as (P1 & P2 & P3 & T4 & i & t & host & Hin & Et & Hrt & Hhr & HH1 & HH2 & PD).
  pose proof T4 as (Hi4 & Hd4 & T4o & _).
  assert (F4 : files v m' = A ++ new_file v im fid :: B) by (unfold files; rewrite P1, W1, R1; exact A5).
  assert (D4 : disks v m' = disks v m2) by (unfold disks; now rewrite P2, W2).
  assert (DR : taken (m_hw m) k -> drive = Some k).
  { intros Hk. destruct drive as [k0|]; [destruct PD as [-> _]; reflexivity|]. exfalso. destruct PD as [PD _]. apply PD. destruct Hk as [j Hj].
    destruct (str_eq_dec k ck) as [->|N]; [now exists ci3|]. exists j. apply T3o; [exact N|]. now rewrite HW2. }
  assert (REPL : file <> None -> exists f, In f (files v m) /\ agree (ReplaceFile (get_attr f (FILE_HREF v)) (im_name im)) = true).
  { intros F. destruct file as [f|]; [|now elim F]. destruct ox as [x|]; [|contradiction]. exists x. split; [now apply file_at_In in Hox|].
    destruct (Q1 f eq_refl) as (href & Eh & Ah). rewrite (attr_file v m f x _ Hox) in Eh. apply ok_inj in Eh. subst href. exact Ah. }
  split; [|split; [|split; [|split]]].
  - intros f Hf Nf. rewrite A4 in Hf. apply in_one in Hf as [Hf|Hf]; [|exfalso; apply Nf; rewrite F4; apply in_mid; now right].
    subst ox. destruct file as [j|]; [|contradiction]. destruct (Q1 j eq_refl) as (href & Eh & Ah). rewrite (attr_file v m j f _ Hox) in Eh. apply ok_inj in Eh. subst href. exact Ah.
  - intros X. destruct file as [j|]; [left; apply REPL; discriminate|right]. apply Q2; [reflexivity|].
    destruct X as [(d & Hd1 & Nd)|Hk]; [left|right; rewrite (DR Hk); discriminate].
    intros ->. apply Nd. rewrite D4. now apply DK.
  - intros j Hj Na. destruct (Q3 k (DR (ex_intro _ j Hj))) as (t0 & Et0 & [->|Ag]); [|now exists t0].
    exfalso. apply Na. now apply (hardware_type_is_a E m k j dt t).
  - intros k' [j Hj] Nk Nkk. apply T4o in Hj; [|exact Nkk]. destruct (str_eq_dec k' ck) as [->|N].
    + exists ct. apply Q4. destruct ctrl as [c|]; [|reflexivity]. exfalso. destruct QC as [-> _]. destruct (HCk c eq_refl) as [x Hx]. apply Nk. exists x. now rewrite <- HW2.
    + exfalso. apply Nk. apply T3o in Hj; [|exact N]. exists j. now rewrite <- HW2.
  - intros k' j j' Hj Hj' Nkk Nj. apply T4o in Hj'; [|exact Nkk].
    assert (UN : forall h, ids_ok v h -> forall a b, In (k', a) h -> In (k', b) h -> a = b).
    { intros h Hh a b Ha Hb. apply (hitem_In _ _ _ (proj1 Hh)) in Ha. apply (hitem_In _ _ _ (proj1 Hh)) in Hb. congruence. }
    destruct (str_eq_dec k' ck) as [->|N].
    2:{ exfalso. apply Nj. apply T3o in Hj'; [|exact N]. rewrite HW2 in Hj'. exact (UN _ Hi _ _ Hj' Hj). }
    destruct ctrl as [c|].
    2:{ exfalso. destruct QC as (i0 & a0 & _ & X & _). apply X. exists j. now rewrite HW2. }
    destruct QC as [-> _]. destruct subtype as [s|].
    + exists s. split; [reflexivity|]. destruct (Q5 c s eq_refl eq_refl) as [X|(x & X & Y)]; [now left|right; exists ct, x; now split].
    + exfalso. apply Nj. apply ok_inj in E11. subst sub. unfold add_controller_device in E12. cbn [rbind option_map fst snd] in E12.
      injection E12 as <-. rewrite HW2 in Hj'. exact (UN _ Hi _ _ Hj' Hj).
Qed.

Theorem add_file_asked : forall agree E m im file_id m', orderly E m -> add_file_run agree E m im file_id = Ok m' ->
  forall f, In f (files (e_ver E) m) -> ~ In f (files (e_ver E) m') -> agree (ReplaceFile (get_attr f (FILE_HREF (e_ver E))) (im_name im)) = true.
Proof.
  intros agree E m im file_id m' [Hi Hd Hl Hp Pi _ _ _] H f Hf Nf. change (ids_ok (e_ver E) (m_hw m)) in Hi. unfold add_file_run in H. set (v := e_ver E) in *.
  destruct (search_from_filename E m (Some (im_name im))) as [[[[f1 d1] c1] i1]|] eqn:E1; [|discriminate]. cbn [rbind] in H.
  apply filename_says in E1 as [S1 _]; try assumption.
  match type of H with rbind ?r _ = _ => destruct r as [file|] eqn:E2; [|discriminate] end. cbn [rbind] in H.
  match type of H with rbind ?r _ = _ => destruct r as [id|] eqn:E3; [|discriminate] end. cbn [rbind] in H.
  match type of H with rbind ?r _ = _ => destruct r as [[]|] eqn:E4; [|discriminate] end. cbn [rbind] in H.
  destruct id as [s|]; [|discriminate]. destruct (add_file v m im s file None) as [[m1 fj]|] eqn:E8; [|discriminate]. cbn [rbind fst] in H. apply ok_inj in H. subst m1.
  assert (Pf : forall j, file = Some j -> exists x, file_at v m j x).
  { intros j ->. destruct file_id as [s0|].
    - destruct (search_from_file_id E m (Some s0)) as [[[[f2 d2] c2] i2]|] eqn:E5; [|discriminate]. cbn [rbind] in E2. apply file_id_says in E5 as [S2 _]; try assumption.
      apply conflict_Some in E2 as [[F|[F|[]]] _]; [exact (s_file _ _ _ S1 j F)|exact (s_file _ _ _ S2 j F)|exact Nat.eqb_eq].
    - apply ok_inj in E2. subst f1. exact (s_file _ _ _ S1 j eq_refl). }
  destruct (file_choice v m file Pf) as [ox Hox].
  pose proof (add_file_spec v m im s file None m' fj ox E8 Hox) as (_ & _ & _ & (A & B & A4 & A5) & _).
  rewrite A4 in Hf. apply in_one in Hf as [Hf|Hf]; [|exfalso; apply Nf; rewrite A5; apply in_mid; now right].
  subst ox. destruct file as [j|]; [|contradiction]. rewrite (attr_file v m j f _ Hox) in E4. cbn [rbind] in E4. now apply confirmed.
Qed.

Theorem remove_file_asked : forall agree E m path id m', remove_file_run agree E m path id = Ok m' ->
  exists h i d k, agree (RemoveFile h i d k) = true /\ (forall p, path = Some p -> p = h) /\ (forall s, id = Some s -> s = i).
Proof.
  intros agree E m path id m' H. unfold remove_file_run in H.
  destruct (search_from_filename E m path) as [[[[f1 d1] c1] i1]|]; [|discriminate]. cbn [rbind] in H.
  destruct (search_from_file_id E m id) as [[[[f2 d2] c2] i2]|]; [|discriminate]. cbn [rbind] in H.
  destruct (check_for_conflict Nat.eqb [f1; f2]) as [[f|]|]; try discriminate; cbn [rbind] in H; (destruct (check_for_conflict Nat.eqb [d1; d2]) as [d|]; [|discriminate]); cbn [rbind] in H; (destruct (check_for_conflict str_eqb [i1; i2]) as [k|]; [|discriminate]); cbn [rbind] in H; [|discriminate].
  destruct (attr_at (m_refs m) f (FILE_ID (e_ver E))) as [i|]; [|discriminate]. cbn [rbind] in H.
  destruct (attr_at (m_refs m) f (FILE_HREF (e_ver E))) as [h|]; [|discriminate]. cbn [rbind] in H.
  match type of H with rbind ?r _ = _ => destruct r as [[]|] eqn:E4; [|discriminate] end. cbn [rbind] in H.
  match type of H with rbind ?r _ = _ => destruct r as [[]|] eqn:E5; [|discriminate] end. cbn [rbind] in H.
  match type of H with rbind ?r _ = _ => destruct r as [[]|] eqn:E6; [|discriminate] end. apply confirmed in E6.
  eexists _, _, _, _. split; [exact E6|]. split.
  - intros p ->. apply die_opt in E5. now rewrite <- E5.
  - intros s ->. apply die_opt in E4. now rewrite <- E4.
Qed.
