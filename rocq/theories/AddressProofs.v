(** Proofs about where add-disk puts a new drive. *)
From Coq Require Import Lia Permutation Sorted ZArith.
From Verif Require Import PyBase PyBaseProofs PyDict PyDictProofs ValidationModel ValidationSpec ValidationProofs XmlModel NamesModel
  ItemModel ItemSpec HardwareModel HardwareSpec HardwareProofs HardwareIdProofs CountSpec CountItemProofs CountProofs FindSpec FindProofs
  RawModel NetworkModel DriveModel DriveSpec SlotProofs DeviceProofs LinkProofs SearchProofs AddProofs WorkerProofs AddDiskProofs.
Local Open Scope nat_scope.

Lemma no_char : forall c s, ~ In c s -> forallb (fun x => negb (Ascii.eqb x c)) s = true.
Proof. intros c s H. apply forallb_forall. intros x Hx. apply negb_true_iff, Ascii.eqb_neq. now intros ->. Qed.
Lemma zdec_not_nil : forall z, zdec z <> [].
Proof. intros z H. apply (f_equal py_int) in H. rewrite py_int_zdec in H. discriminate. Qed.
Lemma zdec_no_colon : forall z, ~ In ":"%char (zdec z).
Proof.
  assert (D : forall n, ~ In ":"%char (dec n)).
  { intros n H. pose proof (dec_digits n) as Z. rewrite forallb_forall in Z. specialize (Z _ H). discriminate. }
  intros [|p|p] H; cbn [zdec] in H; [now apply D in H..|]. destruct H as [H|H]; [discriminate|now apply D in H].
Qed.
Lemma split_two_parts : forall s z, ~ In ":"%char s -> split_on ":"%char (s ++ L ":" ++ zdec z) = [s; zdec z].
Proof.
  intros s z H. change (s ++ L ":" ++ zdec z) with (s ++ ":"%char :: zdec z). unfold split_on. rewrite split_on_aux_app by now apply no_char. cbn [rev app].
  unfold split_on. rewrite split_on_aux_last by apply no_char, zdec_no_colon. reflexivity.
Qed.

Lemma all_None : forall A (eqb : A -> A -> bool) l o, (forall a b, eqb a b = true <-> a = b) -> check_for_conflict eqb l = Ok None -> In o l -> o = None.
Proof. intros A eqb l [x|] He H Ho; [|reflexivity]. now apply (conflict_None A eqb l He H) in Ho. Qed.

Lemma ctrl_drive : forall E m file disk r, from_file_and_disk E m file disk = Ok r -> snd r = None -> snd (fst r) = None.
Proof.
  intros E m file disk r H N. unfold from_file_and_disk in H.
  destruct (find_item_from_file E m file) as [d1|]; [|discriminate]. cbn [rbind] in H.
  destruct (find_item_from_disk E m disk) as [d2|]; [|discriminate]. cbn [rbind] in H.
  destruct (check_for_conflict str_eqb [d1; d2]) as [d|]; [|discriminate]. cbn [rbind] in H.
  destruct d as [d|].
  - destruct (find_parent_from_item E m (Some d)) as [[c|]|]; cbn [rbind] in H; try discriminate H. injection H as <-. discriminate N.
  - injection H as <-. reflexivity.
Qed.
Lemma filename_ctrl : forall E m o r, search_from_filename E m o = Ok r -> snd r = None -> snd (fst r) = None.
Proof.
  intros E m o r H N. unfold search_from_filename in H. destruct (find_place _ _ _ _) as [[f|]|]; cbn [rbind] in H; [|injection H as <-; reflexivity|discriminate].
  destruct (attr_at _ _ _) as [id|]; [|discriminate]. cbn [rbind] in H. destruct (find_disk_from_file_id _ _ _) as [d|]; [|discriminate]. cbn [rbind] in H.
  now apply ctrl_drive in H.
Qed.
Lemma file_id_ctrl : forall E m o r, search_from_file_id E m o = Ok r -> snd r = None -> snd (fst r) = None.
Proof.
  intros E m o r H N. unfold search_from_file_id in H. destruct o as [o|]; [|injection H as <-; reflexivity].
  destruct (find_place _ _ _ _) as [f|]; [|discriminate]. cbn [rbind] in H. destruct (find_disk_from_file_id _ _ _) as [d|]; [|discriminate]. cbn [rbind] in H.
  destruct d as [d|], f as [f|]; try discriminate H; now apply ctrl_drive in H.
Qed.

(** Where there is no drive yet, the controller is the one that was asked for. *)
Lemma elements_ctrl : forall E m name file_id controller address file disk ctrl,
  ids_ok (e_ver E) (m_hw m) -> identified E (m_hw m) -> linked (e_ver E) m -> plain_drives E m -> plain_ids (e_ver E) m ->
  search_for_elements E m name file_id controller address = Ok (file, disk, ctrl, None) ->
  match controller, address with
  | Some c, Some a => exists x y rest, split_on ":"%char a = x :: y :: rest /\
      match ctrl with
      | Some ck => exists ci, In (ck, ci) (m_hw m) /\ is_a c ci /\ present E ci None /\ only_value (i_props ci) ADDRESS (VStr x) /\
          forall k i, In (k, i) (m_hw m) -> present E i None -> only_value (i_props i) PARENT (VStr ck) -> ~ only_value (i_props i) ADDRESS_ON_PARENT (VStr y)
      | None => forall ck ci, In (ck, ci) (m_hw m) -> is_a c ci -> present E ci None -> ~ only_value (i_props ci) ADDRESS (VStr x)
      end
  | _, _ => ctrl = None
  end.
Proof.
  intros E m name file_id controller address file disk ctrl Hi Hd Hl Hp Pi H. unfold search_for_elements in H.
  destruct (search_from_filename E m (Some name)) as [[[[f1 d1] c1] i1]|] eqn:E1; [|discriminate]. cbn [rbind] in H.
  destruct (search_from_file_id E m _) as [[[[f2 d2] c2] i2]|] eqn:E2; [|discriminate]. cbn [rbind] in H.
  destruct (search_from_controller E m controller address) as [[[[f3 d3] c3] i3]|] eqn:E3; [|discriminate]. cbn [rbind] in H.
  destruct (check_for_conflict Nat.eqb [f1; f2; f3]) as [f|]; [|discriminate]. cbn [rbind] in H.
  destruct (check_for_conflict Nat.eqb [d1; d2; d3]) as [d|]; [|discriminate]. cbn [rbind] in H.
  destruct (check_for_conflict str_eqb [c1; c2; c3]) as [c|] eqn:C3; [|discriminate]. cbn [rbind] in H.
  destruct (check_for_conflict str_eqb [i1; i2; i3]) as [i|] eqn:C4; [|discriminate]. cbn [rbind] in H. injection H as -> -> -> ->.
  apply filename_ctrl in E1; [|apply (all_None _ _ _ _ str_eqb_eq C4); now left].
  apply file_id_ctrl in E2; [|apply (all_None _ _ _ _ str_eqb_eq C4); right; now left].
  cbn [fst snd] in E1, E2. subst c1 c2.
  assert (i3 = None) as -> by (apply (all_None _ _ _ _ str_eqb_eq C4); right; right; now left).
  assert (ctrl = c3) as ->.
  { destruct c3 as [x|]; [|destruct ctrl as [y|]; [|reflexivity]].
    - destruct ctrl as [y|].
      + apply (conflict_Some _ _ _ _ str_eqb_eq) in C3 as [_ C3]. f_equal. symmetry. apply C3. right. right. now left.
      + exfalso. apply (conflict_None _ _ _ str_eqb_eq C3 x). right. right. now left.
    - apply (conflict_Some _ _ _ _ str_eqb_eq) in C3 as [[F|[F|[F|[]]]] _]; discriminate F. }
  apply controller_says in E3 as [_ S]; try assumption. destruct controller as [c'|], address as [a'|]; try (injection S; intros; congruence).
  destruct S as (x & y & rest & Es & S). exists x, y, rest. split; [exact Es|]. cbn [fst snd] in S. destruct c3 as [ck|].
  - destruct S as (ci & S1 & S2 & S3 & S4 & S5). exists ci. now repeat (split; [assumption|]).
  - now destruct S as [_ S].
Qed.

Lemma elements_at : forall E m name file_id controller address file disk ctrl drive,
  ids_ok (e_ver E) (m_hw m) -> identified E (m_hw m) -> linked (e_ver E) m -> plain_drives E m -> plain_ids (e_ver E) m ->
  search_for_elements E m name file_id controller address = Ok (file, disk, ctrl, drive) ->
  (forall j, file = Some j -> exists x, file_at (e_ver E) m j x) /\ (forall j, disk = Some j -> exists y, disk_at (e_ver E) m j y).
Proof.
  intros E m name file_id controller address file disk ctrl drive Hi Hd Hl Hp Pi W1. unfold search_for_elements in W1.
  destruct (search_from_filename E m (Some name)) as [r1|] eqn:E1; [|discriminate]. cbn [rbind] in W1.
  destruct (search_from_file_id E m _) as [r2|] eqn:E2; [|discriminate]. cbn [rbind] in W1.
  destruct (search_from_controller E m controller address) as [r3|] eqn:E3; [|discriminate]. cbn [rbind] in W1.
  apply filename_says in E1 as [S1 _]; try assumption. apply file_id_says in E2 as [S2 _]; try assumption. apply controller_says in E3 as [S3 _]; try assumption.
  destruct r1 as [[[f1 d1] c1] i1], r2 as [[[f2 d2] c2] i2], r3 as [[[f3 d3] c3] i3].
  destruct (check_for_conflict Nat.eqb [f1; f2; f3]) as [f|] eqn:C1; [|discriminate]. cbn [rbind] in W1.
  destruct (check_for_conflict Nat.eqb [d1; d2; d3]) as [d|] eqn:C2; [|discriminate]. cbn [rbind] in W1.
  destruct (check_for_conflict str_eqb [c1; c2; c3]) as [c|]; [|discriminate]. cbn [rbind] in W1.
  destruct (check_for_conflict str_eqb [i1; i2; i3]) as [i|]; [|discriminate]. cbn [rbind] in W1. injection W1 as -> -> _ _.
  split; intros j ->.
  - apply conflict_Some in C1 as [[F|[F|[F|[]]]] _]; [exact (s_file _ _ _ S1 j F)|exact (s_file _ _ _ S2 j F)|exact (s_file _ _ _ S3 j F)|exact Nat.eqb_eq].
  - apply conflict_Some in C2 as [[F|[F|[F|[]]]] _]; [exact (s_disk _ _ _ S1 j F)|exact (s_disk _ _ _ S2 j F)|exact (s_disk _ _ _ S3 j F)|exact Nat.eqb_eq].
Qed.

Lemma elements_hw : forall fuel v m im fid dt file disk m1 fj m2 oj, linked v m ->
  (forall j, file = Some j -> exists x, file_at v m j x) -> (forall j, disk = Some j -> exists y, disk_at v m j y) ->
  add_file v m im fid file disk = Ok (m1, fj) -> add_disk fuel v m1 im fid dt disk = Ok (m2, oj) -> m_hw m2 = m_hw m.
Proof.
  intros fuel v m im fid dt file disk m1 fj m2 oj Hl Pf Pd W7 W8.
  destruct (file_choice v m file Pf) as [ox Hox]. destruct (disk_choice v m disk Pd) as [oy Hoy].
  pose proof (add_file_spec v m im fid file disk m1 fj ox W7 Hox) as (A1 & A2 & _).
  assert (DA : forall j y, disk_at v m1 j y <-> disk_at v m j y) by (intros j y; unfold disk_at; now rewrite A1).
  destruct (str_eq_dec dt (L "harddisk")) as [Edt|Ndt].
  - rewrite Edt in W8. apply (add_hard_disk fuel v m1 im fid disk m2 oj oy) in W8 as (_ & R2 & _); [congruence|].
    destruct disk as [d|], oy as [y|]; try contradiction; [|exact I]. split; [now apply DA|].
    apply (l_disk_ids _ _ Hl). now apply disk_at_In in Hoy.
  - apply (add_other_disk fuel v m1 im fid dt disk m2 oj oy) in W8 as (_ & R2 & _); [congruence|exact Ndt|].
    destruct disk as [d|], oy as [y|]; try contradiction; [|exact I]. now apply DA.
Qed.

Theorem worker_address : forall agree E fuel guess m im dt file_id controller subtype address diskname desc m' k,
  ids_ok (e_ver E) (m_hw m) -> identified E (m_hw m) -> linked (e_ver E) m -> plain_drives E m -> plain_ids (e_ver E) m -> plain_addresses (m_hw m) ->
  (forall c, controller = Some c -> exists t, dget str_eqb c RES_MAP = Some t) -> (exists t, dget str_eqb (guess dt) RES_MAP = Some t) ->
  (address <> None -> controller <> None) ->
  add_disk_worker agree E fuel guess m im dt file_id controller subtype address diskname desc = Ok (m', k) ->
  ~ taken (m_hw m) k ->
  exists i ck ci ct, In (k, i) (m_hw m') /\ In (ck, ci) (m_hw m') /\ ck <> k /\ is_a ct ci /\
    ct = (match controller with Some c => c | None => guess dt end) /\
    only_value (i_props i) PARENT (VStr ck) /\
    match address with
    | None => exists a, only_value (i_props i) ADDRESS_ON_PARENT (VStr (zdec a)) /\ lowest_unused (occupied (m_hw m) ck) a /\
        ((taken (m_hw m) ck /\ (forall z, last_slot ct z -> (a <= z)%Z) /\
          exists ks1 ks2, are_wanted E (m_hw m) (Some ct) [] [] (ks1 ++ ck :: ks2) /\ forall k', In k' ks1 -> full (m_hw m) ct k') \/
         (~ taken (m_hw m) ck /\ (forall k' i', In (k', i') (m_hw m) -> is_a ct i' -> full (m_hw m) ct k') /\
          exists c, only_value (i_props ci) ADDRESS (VStr (zdec c)) /\ lowest_unused (controller_at (m_hw m) ct) c /\
            forall z, last_controller ct z -> (c <= z)%Z))
    | Some s => exists x y rest, split_on ":"%char s = x :: y :: rest /\
        (x <> [] -> only_value (i_props ci) ADDRESS (VStr x)) /\ (y <> [] -> only_value (i_props i) ADDRESS_ON_PARENT (VStr y)) /\
        (forall k' i', In (k', i') (m_hw m) -> present E i' None -> only_value (i_props i') PARENT (VStr ck) -> taken (m_hw m) ck ->
           ~ only_value (i_props i') ADDRESS_ON_PARENT (VStr y)) /\
        (~ taken (m_hw m) ck -> forall k' i', In (k', i') (m_hw m) -> is_a ct i' -> present E i' None -> ~ only_value (i_props i') ADDRESS (VStr x))
    end.
Proof.
  intros agree E fuel guess m im dt file_id controller subtype address diskname desc m' k Hi Hd Hl Hp Pi Pa HC HG AC H Nk.
  apply worker_inv in H as (file & disk & ctrl0 & drive & ct & ctrl & addr & fid & m1 & fj & m2 & oj & parts & sub & m3 & ck &
    W1 & W2 & W3 & W4 & W5 & W6 & W7 & W8 & W9 & W10 & W11).
  set (v := e_ver E) in *.
  assert (PRE : (forall j, file = Some j -> exists x, file_at v m j x) /\ (forall j, disk = Some j -> exists y, disk_at v m j y)).
  { apply (elements_at E m (im_name im) file_id controller address file disk ctrl0 drive); assumption. }
  destruct PRE as [Pf Pd].
  apply validate_spec in W5 as (_ & V2 & _ & _ & V5); [|exact Pf|exact Pd]. fold v in V2.
  destruct (elements_say E m (im_name im) file_id controller address file disk ctrl0 drive Hi Hd Hl Hp Pi W1 V2) as (S & _ & _).
  pose proof (elements_hw fuel v m im fid dt file disk m1 fj m2 oj Hl Pf Pd W7 W8) as HW2.
  assert (Hi2 : ids_ok (e_ver E) (m_hw m2)) by (rewrite HW2; exact Hi).
  assert (Hd2 : identified E (m_hw m2)) by (rewrite HW2; exact Hd).
  assert (HCk : forall c, ctrl = Some c -> exists i, In (c, i) (m_hw m2)).
  { intros c ->. rewrite HW2. destruct ctrl0 as [c0|].
    - destruct W4 as [W4 _]. injection W4 as ->. exact (s_ctrl _ _ _ S c0 eq_refl).
    - destruct address as [a0|]; [destruct W4; discriminate|]. destruct W4 as [(_ & F & _)|(k0 & a0 & Fo & F & _)]; [discriminate|].
      injection F as ->. unfold find_open_controller in Fo. destruct (find_all_items E (m_hw m) (Some ct) [] []) as [ks|] eqn:Ek; [|discriminate]. cbn [rbind] in Fo.
      apply find_all_wanted in Ek as (_ & _ & Wk); [|exact Hi|intros z []].
      pose proof (first_open_spec E m ct ks Hi Hd) as FO. rewrite Fo in FO. destruct FO as (ks1 & ks2 & ca & a1 & -> & _).
      { intros k' Hk'. apply Wk in Hk' as (j & Hj & _). now exists j. }
      destruct (proj1 (Wk k0)) as (j & Hj & _); [apply in_or_app; right; now left|]. now exists j. }
  destruct (controller_stage E m2 ct sub (fst parts) ctrl m3 ck Hi2 Hd2 HCk W10) as (_ & _ & _ & T3 & QC).
  pose proof T3 as (Hi3 & Hd3 & T3o & ci3 & Hci3 & T3c).
  destruct (drive_stage E m3 dt (snd parts) diskname desc oj fj ck ci3 drive m' k Hi3 Hd3 Hci3 W11)
    as (_ & _ & _ & T4 & i & t & host & Hin & _ & _ & _ & _ & _ & PD).
  pose proof T4 as (Hi4 & Hd4 & T4o & _).
  destruct drive as [k0|].
  { exfalso. apply Nk. destruct PD as (-> & _). destruct (s_drive _ _ _ S k0 eq_refl) as [(i0 & I0 & _) _]. now exists i0. }
  pose proof (elements_ctrl E m (im_name im) file_id controller address file disk ctrl0 Hi Hd Hl Hp Pi W1) as EC.
  destruct PD as (N3 & Hpar & a & Ha1 & Ha2 & _).
  assert (Nck : ck <> k) by (intros ->; apply N3; now exists ci3).
  assert (Ect : ct = match controller with Some c => c | None => guess dt end).
  { destruct controller as [c|]; [now apply W2|]. specialize (W3 eq_refl). unfold guess_controller_type in W3. rewrite EC in W3. now injection W3. }
  assert (KT : exists t, dget str_eqb ct RES_MAP = Some t).
  { rewrite Ect. destruct controller as [c|]; [now apply HC|exact HG]. }
  assert (I3 : is_a ct ci3).
  { destruct ctrl as [c|].
    - destruct QC as (-> & QC). destruct (HCk c eq_refl) as [c2 Hc2]. destruct KT as [tt0 KT]. rewrite HW2 in Hc2.
      pose proof (hardware_type_is_a E m c c2 ct tt0 Hi Hc2 KT (V5 c eq_refl)) as (t1 & X1 & X2). exists t1. split; [exact X1|].
      apply (only_moved c2); [|exact X2]. intros q u. apply QC; [rewrite HW2; exact Hc2|exact Hci3|discriminate|apply RT_not_text].
    - destruct QC as (i0 & a0 & X1 & _ & X2 & _). assert (i0 = ci3) as <-; [|exact X2].
      apply (hitem_In _ _ _ (proj1 Hi3)) in X1. apply (hitem_In _ _ _ (proj1 Hi3)) in Hci3. congruence. }
  (* the addresses in use are the same before and after the controller *)
  assert (OCC : forall b, occupied (m_hw m3) ck b <-> occupied (m_hw m) ck b).
  { assert (PN : ~ In PARENT [ADDRESS; RESOURCE_SUB_TYPE]) by (intros [X|[X|[]]]; discriminate X).
    assert (AN : ~ In ADDRESS_ON_PARENT [ADDRESS; RESOURCE_SUB_TYPE]) by (intros [X|[X|[]]]; discriminate X).
    intros b. rewrite <- HW2. split; intros (k1 & i1 & O1 & O2 & O3).
    - apply (touched_back E _ ck (m_hw m2) (m_hw m3) k1 i1 Hi2 T3) in O1 as [(j0 & J1 & J2 & J3)|(-> & _ & _ & _ & J)].
      + exists k1, j0. split; [exact J1|]. split; [apply (only_moved i1); [|exact O2]|apply (only_moved i1); [|exact O3]]; intros q u; symmetry; apply J3;
          try assumption; [apply PARENT_not_text|apply AOP_not_text].
      + exfalso. destruct O2 as [[q O2] _]. revert O2. apply J; [|apply PARENT_not_text]. unfold v. destruct (e_ver E); intros [X|[X|[X|[X|[]]]]]; discriminate X.
    - destruct (str_eq_dec k1 ck) as [->|N].
      + exists ck, ci3. split; [exact Hci3|]. destruct T3c as [(j0 & J1 & J2 & J3)|(J & _)]; [|exfalso; apply J; now exists i1].
        assert (j0 = i1) as -> by (apply (hitem_In _ _ _ (proj1 Hi2)) in J1; apply (hitem_In _ _ _ (proj1 Hi2)) in O1; congruence).
        split; [apply (only_moved i1); [|exact O2]|apply (only_moved i1); [|exact O3]]; intros q u; apply J3; try assumption; [apply PARENT_not_text|apply AOP_not_text].
      + exists k1, i1. split; [now apply T3o|]. now split. }
  exists i, ck, ci3, ct. split; [exact Hin|]. split; [now apply T4o|]. split; [exact Nck|]. split; [exact I3|]. split; [exact Ect|]. split; [exact Hpar|].
  destruct address as [s|].
  - destruct controller as [c|]; [|exfalso; now apply AC]. destruct EC as (x & y & rest & Es & EC).
    assert (WA : ctrl = ctrl0 /\ addr = Some s) by (destruct ctrl0; exact W4). destruct WA as [-> ->]. destruct W9 as (x' & y' & r' & Es' & ->).
    rewrite Es in Es'. injection Es' as <- <- _. cbn [fst snd] in *. subst a. exists x, y, rest. split; [exact Es|].
    pose proof (W2 c eq_refl) as E2. destruct ctrl0 as [c0|].
    + destruct QC as [-> QC]. destruct EC as (ci & X1 & X2 & X3 & X4 & X5). rewrite <- HW2 in X1. split; [|split; [|split]].
      * intros _. apply (only_moved ci); [|exact X4]. intros q u. apply QC; [exact X1|exact Hci3|discriminate|apply ADDRESS_not_text].
      * exact Ha1.
      * intros k' i' Hk' Hp' Hpa _. now apply (X5 k').
      * intros F. exfalso. apply F. exists ci. now rewrite <- HW2.
    + destruct QC as (i0 & a0 & X1 & X2 & _ & X3 & -> & _). split; [|split; [|split]].
      * assert (i0 = ci3) as <-; [|exact X3]. apply (hitem_In _ _ _ (proj1 Hi3)) in X1. apply (hitem_In _ _ _ (proj1 Hi3)) in Hci3. congruence.
      * exact Ha1.
      * intros k' i' _ _ _ F. exfalso. apply X2. now rewrite HW2.
      * intros _ k' i' Hk' Ha'. rewrite E2 in Ha'. now apply (EC k').
  - assert (ctrl0 = None) as -> by (destruct controller; exact EC). destruct W4 as [(Fo & -> & ->)|(k1 & a1 & Fo & -> & ->)].
    + rewrite W9 in *. cbn [fst snd] in *. destruct Ha2 as (z & -> & Hz). exists z. split; [apply Ha1; apply zdec_not_nil|].
      split; [destruct Hz as (Z1 & Z2 & Z3); split; [exact Z1|]; split; [now rewrite <- OCC|intros b Hb'; apply OCC; now apply Z3]|]. right.
      destruct QC as (i0 & a0 & X1 & X2 & _ & X3 & (c & -> & X4) & X5). rewrite HW2 in X2, X4. split; [exact X2|]. split.
      * destruct KT as [tt0 KT]. pose proof (find_open_spec E m ct tt0 Hi Hd KT) as FS. now rewrite Fo in FS.
      * exists c. split; [|split; [exact X4|]].
        -- assert (i0 = ci3) as <-; [|apply X3; apply zdec_not_nil]. apply (hitem_In _ _ _ (proj1 Hi3)) in X1. apply (hitem_In _ _ _ (proj1 Hi3)) in Hci3. congruence.
        -- intros z' Hz'. destruct (X5 z' Hz') as (x & Y1 & Y2). rewrite py_int_zdec in Y1. injection Y1 as ->. exact Y2.
    + destruct QC as [-> QC]. destruct KT as [tt0 KT]. pose proof (find_open_spec E m ct tt0 Hi Hd KT) as FS. rewrite Fo in FS.
      destruct FS as (ks1 & ks2 & ca & z & X1 & X2 & X3 & -> & X4 & X5). destruct (HCk k1 eq_refl) as [c2 Hc2]. rewrite HW2 in Hc2.
      assert (NC : ~ In ":"%char (shown_value E ca)).
      { destruct ca as [w|]; [|intros F; cbn in F; intuition discriminate]. destruct (value_of_only E m k1 c2 ADDRESS Hi Hc2 (ADDRESS_not_text E)) as (o & Eo & Ho).
        rewrite X3 in Eo. injection Eo as <-. destruct (proj1 (Ho w) eq_refl) as [[q Hq] _]. destruct (Pa k1 c2 q w Hc2 Hq) as (s & -> & Hs). exact Hs. }
      destruct W9 as (x & y & r & Es & ->). rewrite (split_two_parts _ _ NC) in Es. injection Es as <- <- _. cbn [fst snd] in *. subst a.
      exists z. split; [apply Ha1; apply zdec_not_nil|]. split; [exact X4|]. left. split; [now exists c2|]. split; [exact X5|]. now exists ks1, ks2.
Qed.
