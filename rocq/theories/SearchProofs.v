(** Proofs about finding files, disks, drives and controllers. *)
From Coq Require Import Lia Permutation Sorted.
From Verif Require Import PyBase PyBaseProofs PyDict PyDictProofs ValidationModel ValidationSpec ValidationProofs XmlModel NamesModel
  ItemModel ItemSpec PsetProofs ItemProofs ItemSetProofs ItemReachProofs
  ItemEffectProofs HardwareModel HardwareSpec HardwareProofs HardwareIdProofs CountSpec CountItemProofs CountProofs FindSpec FindProofs
  RawModel NetworkModel DriveModel DriveSpec SlotProofs DeviceProofs LinkProofs.
Local Open Scope nat_scope.

Definition file_at (v : version) (m : vmd) (j : nat) (x : elem) : Prop :=
  nth_error (echildren (m_refs m)) j = Some x /\ etag x = FILE v.
Definition disk_at (v : version) (m : vmd) (j : nat) (y : elem) : Prop :=
  exists sec, m_disks m = Some sec /\ nth_error (echildren sec) j = Some y /\ etag y = DISK v.

Lemma file_at_In : forall v m j x, file_at v m j x -> In x (files v m).
Proof. intros v m j x [H1 H2]. apply tagged_In. split; [now apply nth_error_In in H1|exact H2]. Qed.
Lemma disk_at_In : forall v m j y, disk_at v m j y -> In y (disks v m).
Proof.
  intros v m j y (sec & H1 & H2 & H3). unfold disks. rewrite H1. apply tagged_In. split; [now apply nth_error_In in H2|exact H3].
Qed.
Lemma file_at_fun : forall v m j x x', file_at v m j x -> file_at v m j x' -> x = x'.
Proof. intros v m j x x' [H _] [H' _]. congruence. Qed.
Lemma disk_at_fun : forall v m j x x', disk_at v m j x -> disk_at v m j x' -> x = x'.
Proof. intros v m j x x' (s & H & H1 & _) (s' & H' & H1' & _). congruence. Qed.
Lemma attr_file : forall v m j x k, file_at v m j x -> attr_at (m_refs m) j k = Ok (get_attr x k).
Proof. intros v m j x k [H _]. unfold attr_at, child_at. now rewrite H. Qed.
Lemma attr_disk : forall v m j y k, disk_at v m j y -> (do sec <- the_disks m; attr_at sec j k) = Ok (get_attr y k).
Proof. intros v m j y k (sec & H1 & H2 & _). unfold the_disks. rewrite H1. cbn [rbind]. unfold attr_at, child_at. now rewrite H2. Qed.

Lemma find_file : forall v m k o j, find_place (m_refs m) (FILE v) k o = Ok (Some j) ->
  (exists x, file_at v m j x /\ get_attr x k = o) /\
  forall j' x, file_at v m j' x -> get_attr x k = o -> j' = j.
Proof.
  intros v m k o j H. apply find_place_Some in H as [(e & H1 & H2 & H3) U]. split; [exists e; repeat split; assumption|].
  intros j' x [A B] C. now apply (U j' x).
Qed.
Lemma find_no_file : forall v m k o, find_place (m_refs m) (FILE v) k o = Ok None -> forall x, In x (files v m) -> get_attr x k <> o.
Proof. intros v m k o H x Hx. apply tagged_In in Hx as [H1 H2]. now apply (find_place_None _ _ _ _ H). Qed.
Lemma find_disk : forall v m sec k o j, m_disks m = Some sec -> find_place sec (DISK v) k o = Ok (Some j) ->
  (exists y, disk_at v m j y /\ get_attr y k = o) /\
  forall j' y, disk_at v m j' y -> get_attr y k = o -> j' = j.
Proof.
  intros v m sec k o j Hs H. apply find_place_Some in H as [(e & H1 & H2 & H3) U]. split; [exists e; split; [exists sec; repeat split; assumption|assumption]|].
  intros j' x (sec' & A & B & C) D. apply (U j' x); congruence.
Qed.
Lemma find_no_disk : forall v m sec k o, m_disks m = Some sec -> find_place sec (DISK v) k o = Ok None ->
  forall y, In y (disks v m) -> get_attr y k <> o.
Proof.
  intros v m sec k o Hs H y Hy. unfold disks in Hy. rewrite Hs in Hy. apply tagged_In in Hy as [H1 H2].
  now apply (find_place_None _ _ _ _ H).
Qed.

Lemma conflict_None : forall A (eqb : A -> A -> bool) l, (forall a b, eqb a b = true <-> a = b) ->
  check_for_conflict eqb l = Ok None -> forall y, ~ In (Some y) l.
Proof. intros A eqb l He H. exact (proj1 (proj1 (check_for_conflict_spec eqb He l)) H). Qed.
Lemma conflict_Some : forall A (eqb : A -> A -> bool) l x, (forall a b, eqb a b = true <-> a = b) ->
  check_for_conflict eqb l = Ok (Some x) -> In (Some x) l /\ forall y, In (Some y) l -> y = x.
Proof. intros A eqb l x He H. exact (proj1 (proj1 (proj2 (check_for_conflict_spec eqb He l)) x) H). Qed.

(** ** The file name at the end of a reference *)
Lemma basename_ref : forall p id, ~ In "/"%char id -> basename (p ++ "/"%char :: id) = id.
Proof.
  intros p id H. unfold basename.
  assert (H' : forallb (fun c => negb (Ascii.eqb c "/"%char)) id = true).
  { apply forallb_forall. intros c Hc. apply negb_true_iff. destruct (Ascii.eqb c "/"%char) eqn:E; [|reflexivity].
    apply Ascii.eqb_eq in E as ->. contradiction. }
  assert (G : forall p cur, last (split_on_aux "/"%char cur (p ++ "/"%char :: id)) [] = id).
  { clear p. induction p as [|c p IH]; intros cur.
    - cbn [app split_on_aux]. rewrite Ascii.eqb_refl. now rewrite (split_on_aux_last "/"%char id []) by exact H'.
    - cbn [app split_on_aux]. destruct (Ascii.eqb c "/"%char) eqn:Ec; [|apply IH].
      specialize (IH []). destruct (split_on_aux "/"%char [] (p ++ "/"%char :: id)) eqn:El; [|exact IH].
      exfalso. now apply (split_on_aux_spec "/"%char (p ++ "/"%char :: id) []). }
  apply G.
Qed.
Lemma basename_disk : forall v s id, refers_disk v s id -> ~ In "/"%char id -> basename s = id.
Proof.
  intros v s id [->| ->] H.
  - destruct v; [apply (basename_ref (L "/disk") id H)|apply (basename_ref (L "ovf:/disk") id H)|apply (basename_ref (L "ovf:/disk") id H)].
  - apply (basename_ref (L "/disk") id H).
Qed.
Lemma basename_file : forall v s id, refers_file v s id -> ~ In "/"%char id -> basename s = id.
Proof.
  intros v s id [->| ->] H.
  - destruct v; [apply (basename_ref (L "/file") id H)|apply (basename_ref (L "ovf:/file") id H)|apply (basename_ref (L "ovf:/file") id H)].
  - apply (basename_ref (L "/file") id H).
Qed.
Lemma is_disk_ref_spec : forall v s, is_disk_ref v s = true <-> exists id, refers_disk v s id.
Proof.
  intros v s. unfold is_disk_ref, refers_disk. rewrite orb_true_iff, !starts_with_spec. split.
  - intros [[t ->]|[t ->]]; exists t; auto.
  - intros [t [->| ->]]; [left|right]; now exists t.
Qed.
Lemma is_file_ref_spec : forall v s, is_file_ref v s = true <-> exists id, refers_file v s id.
Proof.
  intros v s. unfold is_file_ref, refers_file. rewrite orb_true_iff, !starts_with_spec. split.
  - intros [[t ->]|[t ->]]; exists t; auto.
  - intros [t [->| ->]]; [left|right]; now exists t.
Qed.

(** ** Drives *)

Definition drive_ref (m : vmd) (k s : str) : Prop := exists i p, In (k, i) (m_hw m) /\ own (i_props i) HOST_RESOURCE p (VStr s).

Lemma plain_wanted : forall E m k i p s, plain_drives E m -> In (k, i) (m_hw m) -> own (i_props i) HOST_RESOURCE p (VStr s) ->
  wanted E None [(HOST_RESOURCE, Some (VStr s))] [None] i.
Proof.
  intros E m k i p s P Hin Ho. destruct (P k i Hin) as [P1 P2]. split; [discriminate|]. split.
  - intros q [<-|[]]. now apply (P2 p (VStr s)).
  - intros c [<-|[]]. split; [now exists p|]. intros q w Hw. now apply (P1 q p).
Qed.
Lemma HR_plain_cond : forall E o, plain_conditions (e_ver E) [(HOST_RESOURCE, o)].
Proof. intros E o c [<-|[]]. apply HR_not_text. Qed.

Lemma found_item : forall E h rt l p k, ids_ok (e_ver E) h -> plain_conditions (e_ver E) l ->
  find_item E h rt l p = Ok (Some k) -> exists i, In (k, i) h /\ wanted E rt l [p] i.
Proof.
  intros E h rt l p k Hi Hl H. pose proof (find_item_wanted E h rt l p Hi Hl) as W. rewrite H in W. destruct W as (i & A & B & _). eauto.
Qed.
Lemma found_nothing : forall E h rt l p, ids_ok (e_ver E) h -> plain_conditions (e_ver E) l ->
  find_item E h rt l p = Ok None -> forall k i, In (k, i) h -> ~ wanted E rt l [p] i.
Proof. intros E h rt l p Hi Hl H. pose proof (find_item_wanted E h rt l p Hi Hl) as W. now rewrite H in W. Qed.

Lemma by_host : forall E m new old id o, ids_ok (e_ver E) (m_hw m) -> find_by_host E m new old (Some id) = Ok o ->
  (forall k, o = Some k -> exists i s p, In (k, i) (m_hw m) /\ present E i None /\ own (i_props i) HOST_RESOURCE p (VStr s) /\ (s = new ++ id \/ s = old ++ id)) /\
  (o = None -> plain_drives E m -> forall k s, drive_ref m k s -> s <> new ++ id /\ s <> old ++ id).
Proof.
  intros E m new old id o Hi H. unfold find_by_host in H. cbn [plus rbind] in H.
  destruct (find_item E (m_hw m) None [(HOST_RESOURCE, Some (VStr (new ++ id)))] None) as [[k|]|] eqn:E1; [| |discriminate]; cbn [rbind] in H.
  - injection H as <-. split; [|discriminate]. intros k' Ek. injection Ek as <-.
    apply found_item in E1 as (i & Hin & _ & W1 & W2); [|exact Hi|apply HR_plain_cond].
    destruct (W2 _ (or_introl eq_refl)) as [[p Hp] _]. exists i, (new ++ id), p. split; [exact Hin|]. split; [apply W1; now left|]. split; [exact Hp|now left].
  - split.
    + intros k ->. apply found_item in H as (i & Hin & _ & W1 & W2); [|exact Hi|apply HR_plain_cond].
      destruct (W2 _ (or_introl eq_refl)) as [[p Hp] _]. exists i, (old ++ id), p. split; [exact Hin|]. split; [apply W1; now left|]. split; [exact Hp|now right].
    + intros -> P k s (i & p & Hin & Ho). pose proof (plain_wanted E m k i p s P Hin Ho) as W. split; intros ->.
      * now apply (found_nothing E _ _ _ _ Hi (HR_plain_cond E _) E1 k i Hin).
      * now apply (found_nothing E _ _ _ _ Hi (HR_plain_cond E _) H k i Hin).
Qed.

(** What a result (file, disk, controller, drive) of a search says. *)
Record says (E : env) (m : vmd) (r : found) : Prop := {
  s_file : forall j, fst (fst (fst r)) = Some j -> exists x, file_at (e_ver E) m j x;
  s_disk : forall j, snd (fst (fst r)) = Some j -> exists y, disk_at (e_ver E) m j y;
  s_both : forall j j' x y, fst (fst (fst r)) = Some j -> snd (fst (fst r)) = Some j' ->
    file_at (e_ver E) m j x -> disk_at (e_ver E) m j' y -> get_attr y (DISK_FILE_REF (e_ver E)) = get_attr x (FILE_ID (e_ver E));
  s_no_disk : forall j x, fst (fst (fst r)) = Some j -> snd (fst (fst r)) = None -> file_at (e_ver E) m j x ->
    forall y, In y (disks (e_ver E) m) -> get_attr y (DISK_FILE_REF (e_ver E)) <> get_attr x (FILE_ID (e_ver E));
  s_no_file : forall j y, fst (fst (fst r)) = None -> snd (fst (fst r)) = Some j -> disk_at (e_ver E) m j y ->
    get_attr y (DISK_FILE_REF (e_ver E)) = None;
  s_ctrl : forall ck, snd (fst r) = Some ck -> exists ci, In (ck, ci) (m_hw m);
  s_drive : forall k, snd r = Some k -> (exists i, In (k, i) (m_hw m) /\ present E i None) /\ exists ck, snd (fst r) = Some ck;
  s_disk_drive : forall j y s k', snd (fst (fst r)) = Some j -> disk_at (e_ver E) m j y -> drive_ref m k' s ->
    disk_of (e_ver E) m s y -> exists k s', snd r = Some k /\ drive_ref m k s' /\
      (disk_of (e_ver E) m s' y \/ exists f, file_of (e_ver E) m s' f /\ get_attr f (FILE_ID (e_ver E)) = get_attr y (DISK_FILE_REF (e_ver E)));
  s_file_drive : forall j x s k' id, fst (fst (fst r)) = Some j -> file_at (e_ver E) m j x -> drive_ref m k' s ->
    get_attr x (FILE_ID (e_ver E)) = Some id -> refers_file (e_ver E) s id -> exists k s', snd r = Some k /\ drive_ref m k s' /\ file_of (e_ver E) m s' x }.

Lemma says_nothing : forall E m, says E m nothing.
Proof. intros E m. constructor; cbn; intros; discriminate. Qed.

Lemma parent_found : forall E m o c, ids_ok (e_ver E) (m_hw m) -> find_parent_from_item E m o = Ok (Some c) -> exists ci, In (c, ci) (m_hw m).
Proof.
  intros E m [k|] c Hi H; [|discriminate]. cbn [find_parent_from_item] in H.
  destruct (value_of E m k PARENT) as [[v|]|]; try discriminate. cbn [rbind] in H.
  apply found_item in H as (i & Hin & _); [eauto|exact Hi|intros x [<-|[]]; apply IID_not_text].
Qed.

(** From a file and its disk to the drive. *)
Lemma file_disk_says : forall E m file disk r, ids_ok (e_ver E) (m_hw m) -> linked (e_ver E) m -> plain_drives E m ->
  (forall j, file = Some j -> exists x, file_at (e_ver E) m j x) ->
  (forall j, disk = Some j -> exists j' x y, file = Some j' /\ file_at (e_ver E) m j' x /\ disk_at (e_ver E) m j y /\
     get_attr y (DISK_FILE_REF (e_ver E)) = get_attr x (FILE_ID (e_ver E))) ->
  (forall j x, file = Some j -> disk = None -> file_at (e_ver E) m j x ->
    forall y, In y (disks (e_ver E) m) -> get_attr y (DISK_FILE_REF (e_ver E)) <> get_attr x (FILE_ID (e_ver E))) ->
  from_file_and_disk E m file disk = Ok r -> fst (fst (fst r)) = file /\ snd (fst (fst r)) = disk /\ says E m r.
Proof.
  intros E m file disk r Hi Hl Hp Hf Hd Hn H. unfold from_file_and_disk in H.
  destruct (find_item_from_file E m file) as [o1|] eqn:E1; [|discriminate]. cbn [rbind] in H.
  destruct (find_item_from_disk E m disk) as [o2|] eqn:E2; [|discriminate]. cbn [rbind] in H.
  destruct (check_for_conflict str_eqb [o1; o2]) as [drive|] eqn:Ec; [|discriminate]. cbn [rbind] in H.
  destruct (find_parent_from_item E m drive) as [ctrl|] eqn:Ep; [|discriminate]. cbn [rbind] in H.
  assert (R : r = (file, disk, ctrl, drive) /\ (forall k, drive = Some k -> exists ck, ctrl = Some ck)).
  { destruct drive, ctrl; try discriminate; injection H as <-; (split; [reflexivity|intros; try discriminate; eauto]). }
  destruct R as [-> Hdc]. cbn [fst snd]. split; [reflexivity|]. split; [reflexivity|].
  assert (F1 : forall j x, file = Some j -> file_at (e_ver E) m j x -> exists id, get_attr x (FILE_ID (e_ver E)) = Some id /\
    (forall k, o1 = Some k -> exists i s p, In (k, i) (m_hw m) /\ present E i None /\ own (i_props i) HOST_RESOURCE p (VStr s) /\ refers_file (e_ver E) s id) /\
    (o1 = None -> forall k s, drive_ref m k s -> ~ refers_file (e_ver E) s id)).
  { intros j x -> Hx. cbn [find_item_from_file] in E1. rewrite (attr_file _ _ _ _ _ Hx) in E1. cbn [rbind] in E1.
    destruct (proj1 (l_file_ids _ _ Hl) x (file_at_In _ _ _ _ Hx)) as [id Hid]. exists id. split; [exact Hid|]. rewrite Hid in E1.
    apply by_host in E1 as [A B]; [|exact Hi]. split; [exact A|]. intros E0 k s Hs [F|F]; destruct (B E0 Hp k s Hs); contradiction. }
  assert (F2 : forall j y, disk = Some j -> disk_at (e_ver E) m j y -> exists id, get_attr y (DISK_ID (e_ver E)) = Some id /\
    (forall k, o2 = Some k -> exists i s p, In (k, i) (m_hw m) /\ present E i None /\ own (i_props i) HOST_RESOURCE p (VStr s) /\ refers_disk (e_ver E) s id) /\
    (o2 = None -> forall k s, drive_ref m k s -> ~ refers_disk (e_ver E) s id)).
  { intros j y -> Hy. cbn [find_item_from_disk] in E2. destruct (proj1 (l_disk_ids _ _ Hl) y (disk_at_In _ _ _ _ Hy)) as [id Hid].
    exists id. split; [exact Hid|]. destruct Hy as (sec & Y1 & Y2 & Y3). unfold the_disks, attr_at, child_at in E2. rewrite Y1 in E2. cbn [rbind] in E2.
    rewrite Y2 in E2. cbn [rbind] in E2. rewrite Hid in E2.
    apply by_host in E2 as [A B]; [|exact Hi]. split; [exact A|]. intros E0 k s Hs [F|F]; destruct (B E0 Hp k s Hs); contradiction. }
  constructor; cbn [fst snd].
  - exact Hf.
  - intros j Hj. destruct (Hd j Hj) as (j' & x & y & _ & _ & Hy & _). eauto.
  - intros j j' x y Hj Hj' Hx Hy. destruct (Hd j' Hj') as (j0 & x0 & y0 & E0 & Hx0 & Hy0 & Heq).
    assert (j0 = j) as -> by congruence. rewrite (file_at_fun _ _ _ _ _ Hx Hx0), (disk_at_fun _ _ _ _ _ Hy Hy0). exact Heq.
  - exact Hn.
  - intros j y Hj Hj' Hy. destruct (Hd j Hj') as (j' & x & y0 & E0 & _). congruence.
  - intros ck ->. now apply parent_found in Ep.
  - intros k ->. split; [|now apply (Hdc k)]. apply conflict_Some in Ec as [[F|[F|[]]] _]; [| |exact str_eqb_eq].
    + destruct file as [j|]; [|cbn in E1; congruence]. destruct (Hf j eq_refl) as [x Hx].
      destruct (F1 j x eq_refl Hx) as (id & _ & A & _). destruct (A k F) as (i & s & p & H1 & H2 & _). eauto.
    + destruct disk as [j|]; [|cbn in E2; congruence]. destruct (Hd j eq_refl) as (_ & _ & y & _ & _ & Hy & _).
      destruct (F2 j y eq_refl Hy) as (id & _ & A & _). destruct (A k F) as (i & s & p & H1 & H2 & _). eauto.
  - intros j y s k' Hj Hy Hs (Hin & id & Hid & Hr). destruct (F2 j y Hj Hy) as (id' & Hid' & A & B).
    assert (id' = id) as -> by congruence. destruct o2 as [k|]; [|exfalso; now apply (B eq_refl k' s Hs)].
    destruct (A k eq_refl) as (i & s' & p & H1 & _ & H2 & H3). exists k, s'. split.
    + destruct drive as [k0|]; [|exfalso; now apply (conflict_None _ _ _ str_eqb_eq Ec k); right; left].
      f_equal. symmetry. apply (conflict_Some _ _ _ _ str_eqb_eq Ec). right. now left.
    + split; [now exists i, p|]. left. split; [exact Hin|]. now exists id.
  - intros j x s k' id Hj Hx Hs Hid Hr. destruct (F1 j x Hj Hx) as (id' & Hid' & A & B).
    assert (id' = id) as -> by congruence. destruct o1 as [k|]; [|exfalso; now apply (B eq_refl k' s Hs)].
    destruct (A k eq_refl) as (i & s' & p & H1 & _ & H2 & H3). exists k, s'. split.
    + destruct drive as [k0|]; [|exfalso; now apply (conflict_None _ _ _ str_eqb_eq Ec k); left].
      f_equal. symmetry. apply (conflict_Some _ _ _ _ str_eqb_eq Ec). now left.
    + split; [now exists i, p|]. split; [now apply file_at_In in Hx|]. exists id. split; [exact Hid|now left].
Qed.

Lemma find_disk_file_id : forall v m id o, find_disk_from_file_id v m (Some id) = Ok o ->
  match o with
  | Some j => exists y, disk_at v m j y /\ get_attr y (DISK_FILE_REF v) = Some id
  | None => forall y, In y (disks v m) -> get_attr y (DISK_FILE_REF v) <> Some id
  end.
Proof.
  intros v m id o H. unfold find_disk_from_file_id in H. destruct (m_disks m) as [sec|] eqn:Es.
  - destruct o as [j|]; [now apply (find_disk v m sec) in H as [H _]|now apply (find_no_disk v m sec _ _ Es)].
  - injection H as <-. intros y Hy. unfold disks in Hy. now rewrite Es in Hy.
Qed.

Theorem filename_says : forall E m o r, ids_ok (e_ver E) (m_hw m) -> linked (e_ver E) m -> plain_drives E m ->
  search_from_filename E m o = Ok r -> says E m r /\
  match fst (fst (fst r)) with
  | Some j => exists x, file_at (e_ver E) m j x /\ get_attr x (FILE_HREF (e_ver E)) = o
  | None => r = nothing /\ forall x, In x (files (e_ver E) m) -> get_attr x (FILE_HREF (e_ver E)) <> o
  end.
Proof.
  intros E m o r Hi Hl Hp H. unfold search_from_filename in H.
  destruct (find_place _ _ _ _) as [[j|]|] eqn:Ef; [| |discriminate]; cbn [rbind] in H.
  - apply find_file in Ef as [(x & Hx & Ex) _]. rewrite (attr_file _ _ _ _ _ Hx) in H. cbn [rbind] in H.
    destruct (proj1 (l_file_ids _ _ Hl) x (file_at_In _ _ _ _ Hx)) as [id Hid]. rewrite Hid in H.
    destruct (find_disk_from_file_id _ _ _) as [disk|] eqn:Ed; [|discriminate]. cbn [rbind] in H. apply find_disk_file_id in Ed.
    apply file_disk_says in H as (-> & _ & S); try assumption.
    + split; [exact S|eauto].
    + intros j' E0. injection E0 as <-. eauto.
    + intros j' ->. destruct Ed as (y & Hy & Ey). exists j, x, y. repeat split; try assumption; try apply Hx. congruence.
    + intros j' x' E0 -> Hx' y Hy. injection E0 as <-. rewrite (file_at_fun _ _ _ _ _ Hx' Hx), Hid. now apply Ed.
  - injection H as <-. split; [apply says_nothing|]. cbn. split; [reflexivity|]. now apply find_no_file.
Qed.

Theorem file_id_says : forall E m o r, ids_ok (e_ver E) (m_hw m) -> linked (e_ver E) m -> plain_drives E m ->
  search_from_file_id E m o = Ok r -> says E m r /\
  match fst (fst (fst r)) with
  | Some j => exists x, file_at (e_ver E) m j x /\ get_attr x (FILE_ID (e_ver E)) = o /\ o <> None
  | None => r = nothing /\ forall x, In x (files (e_ver E) m) -> o <> None -> get_attr x (FILE_ID (e_ver E)) <> o
  end.
Proof.
  intros E m [id|] r Hi Hl Hp H; unfold search_from_file_id in H.
  - destruct (find_place _ _ _ _) as [file|] eqn:Ef; [|discriminate]. cbn [rbind] in H.
    destruct (find_disk_from_file_id _ _ _) as [disk|] eqn:Ed; [|discriminate]. cbn [rbind] in H. apply find_disk_file_id in Ed.
    destruct file as [j|].
    + apply find_file in Ef as [(x & Hx & Ex) _].
      assert (H' : from_file_and_disk E m (Some j) disk = Ok r) by (destruct disk; exact H). clear H.
      apply file_disk_says in H' as (-> & _ & S); try assumption.
      * split; [exact S|]. exists x. split; [exact Hx|]. split; [exact Ex|discriminate].
      * intros j' E0. injection E0 as <-. eauto.
      * intros j' ->. destruct Ed as (y & Hy & Ey). exists j, x, y. repeat split; try assumption; try apply Hx. congruence.
      * intros j' x' E0 -> Hx' y Hy. injection E0 as <-. rewrite (file_at_fun _ _ _ _ _ Hx' Hx), Ex. now apply Ed.
    + destruct disk as [d|]; [discriminate|]. cbn in H. injection H as <-. split; [apply says_nothing|]. cbn. split; [reflexivity|].
      intros x Hx _. now apply (find_no_file _ _ _ _ Ef).
  - injection H as <-. split; [apply says_nothing|]. cbn. split; [reflexivity|]. intros x Hx F. congruence.
Qed.

(** ** From an address *)

Lemma HR_value : forall E m k i x, ids_ok (e_ver E) (m_hw m) -> In (k, i) (m_hw m) ->
  value_of E m k HOST_RESOURCE = Ok (Some x) -> exists p, own (i_props i) HOST_RESOURCE p x.
Proof.
  intros E m k i x Hi Hin H. destruct (value_of_only E m k i HOST_RESOURCE Hi Hin (HR_not_text E)) as (o & Eo & Ho).
  rewrite Eo in H. injection H as ->. now apply Ho.
Qed.

Lemma disk_linked : forall v m s id k, linked v m -> drive_ref m k s -> refers_disk v s id ->
  exists d, In d (disks v m) /\ get_attr d (DISK_ID v) = Some id.
Proof. intros v m s id k Hl (i & p & Hin & Ho) Hr. exact (l_drive_disks _ _ Hl k i p s id Hin Ho Hr). Qed.
Lemma file_linked : forall v m s id k, linked v m -> drive_ref m k s -> refers_file v s id ->
  exists f, In f (files v m) /\ get_attr f (FILE_ID v) = Some id.
Proof. intros v m s id k Hl (i & p & Hin & Ho) Hr. exact (l_drive_files _ _ Hl k i p s id Hin Ho Hr). Qed.

(** The disk and the file behind a drive. *)
Lemma behind_spec : forall E m k s f d, linked (e_ver E) m -> plain_ids (e_ver E) m -> drive_ref m k s ->
  behind_drive E m s = Ok (f, d) ->
  (forall j, f = Some j -> exists x, file_at (e_ver E) m j x /\ file_of (e_ver E) m s x) /\
  (forall j, d = Some j -> exists y, disk_at (e_ver E) m j y /\
     (disk_of (e_ver E) m s y \/ exists x, file_of (e_ver E) m s x /\ get_attr x (FILE_ID (e_ver E)) = get_attr y (DISK_FILE_REF (e_ver E)))) /\
  (forall j j' x y, f = Some j -> d = Some j' -> file_at (e_ver E) m j x -> disk_at (e_ver E) m j' y ->
     get_attr y (DISK_FILE_REF (e_ver E)) = get_attr x (FILE_ID (e_ver E))) /\
  (forall j x, f = Some j -> d = None -> file_at (e_ver E) m j x ->
     forall y, In y (disks (e_ver E) m) -> get_attr y (DISK_FILE_REF (e_ver E)) <> get_attr x (FILE_ID (e_ver E))) /\
  (forall j y, f = None -> d = Some j -> disk_at (e_ver E) m j y -> get_attr y (DISK_FILE_REF (e_ver E)) = None).
Proof.
  intros E m k s f d Hl [Pf Pd] Hk H. unfold behind_drive in H. set (v := e_ver E) in *.
  destruct (is_disk_ref v s) eqn:Id.
  - apply is_disk_ref_spec in Id as [id Hid]. destruct (disk_linked v m s id k Hl Hk Hid) as (e & He & Hei).
    rewrite (basename_disk v s id Hid (Pd e id He Hei)) in H.
    destruct (m_disks m) as [sec|] eqn:Es; [|unfold disks in He; now rewrite Es in He].
    destruct (find_place sec (DISK v) (DISK_ID v) (Some id)) as [[j0|]|] eqn:Ef; [| |discriminate]; cbn [rbind] in H.
    + apply (find_disk v m sec _ _ _ Es) in Ef as [(y & Hy & Ey) _].
      assert (Ea : (do sec' <- the_disks m; do id0 <- attr_at sec' j0 (DISK_FILE_REF v);
        do file <- find_place (m_refs m) (FILE v) (FILE_ID v) id0; Ok (file, Some j0)) =
        (do file <- find_place (m_refs m) (FILE v) (FILE_ID v) (get_attr y (DISK_FILE_REF v)); Ok (file, Some j0))).
      { pose proof (attr_disk v m j0 y (DISK_FILE_REF v) Hy) as A. unfold the_disks in *. rewrite Es in *. cbn [rbind] in *. now rewrite A. }
      rewrite Ea in H. clear Ea.
      destruct (find_place (m_refs m) (FILE v) (FILE_ID v) _) as [file|] eqn:Eg; [|discriminate]. cbn [rbind] in H. injection H as <- <-.
      assert (Dy : disk_of v m s y) by (split; [now apply disk_at_In in Hy|now exists id]).
      split; [|split; [|split; [|split]]].
      * intros j ->. apply find_file in Eg as [(x & Hx & Ex) _]. exists x. split; [exact Hx|].
        apply file_at_In in Hx as Hin. split; [exact Hin|]. destruct (proj1 (l_file_ids _ _ Hl) x Hin) as [r Hr]. exists r.
        split; [exact Hr|]. right. exists y. split; [exact Dy|congruence].
      * intros j E0. injection E0 as <-. exists y. split; [exact Hy|now left].
      * intros j j' x y' -> E0 Hx Hy'. injection E0 as <-. rewrite (disk_at_fun _ _ _ _ _ Hy' Hy).
        apply find_file in Eg as [(x' & Hx' & Ex') _]. rewrite (file_at_fun _ _ _ _ _ Hx Hx'). now symmetry.
      * discriminate.
      * intros j y' -> E0 Hy'. injection E0 as <-. rewrite (disk_at_fun _ _ _ _ _ Hy' Hy).
        destruct (get_attr y (DISK_FILE_REF v)) as [r|] eqn:Er; [|reflexivity].
        destruct (l_disk_files _ _ Hl y r (disk_at_In _ _ _ _ Hy) Er) as (x & Hx & Ex).
        exfalso. now apply (find_no_file _ _ _ _ Eg x Hx).
    + exfalso. now apply (find_no_disk v m sec _ _ Es Ef e He).
  - destruct (is_file_ref v s) eqn:If.
    + apply is_file_ref_spec in If as [id Hid]. destruct (file_linked v m s id k Hl Hk Hid) as (e & He & Hei).
      rewrite (basename_file v s id Hid (Pf e id He Hei)) in H.
      destruct (find_place (m_refs m) (FILE v) (FILE_ID v) (Some id)) as [file|] eqn:Ef; [|discriminate]. cbn [rbind] in H.
      assert (Ed : find_disk_from_file_id v m (Some id) = Ok d /\ f = file).
      { unfold find_disk_from_file_id. destruct (m_disks m) as [sec|].
        - destruct (find_place sec _ _ _) as [d0|]; [|discriminate]. cbn [rbind] in H. injection H as <- <-. now split.
        - cbn [rbind] in H. injection H as <- <-. now split. }
      destruct Ed as [Ed ->]. apply find_disk_file_id in Ed. clear H.
      assert (Fx : forall x, In x (files v m) -> get_attr x (FILE_ID v) = Some id -> file_of v m s x).
      { intros x Hx Ex. split; [exact Hx|]. exists id. split; [exact Ex|now left]. }
      split; [|split; [|split; [|split]]].
      * intros j ->. apply find_file in Ef as [(x & Hx & Ex) _]. exists x. split; [exact Hx|]. apply file_at_In in Hx. now apply Fx.
      * intros j ->. destruct Ed as (y & Hy & Ey). exists y. split; [exact Hy|]. right. exists e. split; [now apply Fx|congruence].
      * intros j j' x y -> -> Hx Hy. destruct Ed as (y' & Hy' & Ey'). rewrite (disk_at_fun _ _ _ _ _ Hy Hy').
        apply find_file in Ef as [(x' & Hx' & Ex') _]. rewrite (file_at_fun _ _ _ _ _ Hx Hx'). congruence.
      * intros j x -> -> Hx y Hy. apply find_file in Ef as [(x' & Hx' & Ex') _]. rewrite (file_at_fun _ _ _ _ _ Hx Hx'), Ex'. now apply Ed.
      * intros j y -> _ Hy. exfalso. now apply (find_no_file _ _ _ _ Ef e He).
    + injection H as <- <-. repeat split; discriminate.
Qed.

Theorem controller_says : forall E m c a r, ids_ok (e_ver E) (m_hw m) -> identified E (m_hw m) -> linked (e_ver E) m ->
  plain_ids (e_ver E) m ->
  search_from_controller E m c a = Ok r -> says E m r /\
  match c, a with
  | Some c', Some a' => exists x y rest, split_on ":"%char a' = x :: y :: rest /\
      match snd (fst r) with
      | Some ck => exists ci, In (ck, ci) (m_hw m) /\ is_a c' ci /\ present E ci None /\ only_value (i_props ci) ADDRESS (VStr x) /\
          match snd r with
          | Some k => exists i, In (k, i) (m_hw m) /\ only_value (i_props i) PARENT (VStr ck) /\ only_value (i_props i) ADDRESS_ON_PARENT (VStr y)
          | None => forall k i, In (k, i) (m_hw m) -> present E i None -> only_value (i_props i) PARENT (VStr ck) ->
                      ~ only_value (i_props i) ADDRESS_ON_PARENT (VStr y)
          end
      | None => r = nothing /\ forall ck ci, In (ck, ci) (m_hw m) -> is_a c' ci -> present E ci None -> ~ only_value (i_props ci) ADDRESS (VStr x)
      end
  | _, _ => r = nothing
  end.
Proof.
  intros E m c a r Hi Hd Hl Pi H. unfold search_from_controller in H.
  destruct c as [c|]; [|injection H as <-; split; [apply says_nothing|reflexivity]].
  destruct a as [a|]; [|injection H as <-; split; [apply says_nothing|reflexivity]].
  destruct (split_on ":"%char a) as [|x [|y rest]] eqn:Es; try discriminate.
  destruct (find_item E (m_hw m) (Some c) [(ADDRESS, Some (VStr x))] None) as [[ck|]|] eqn:Ec; [| |discriminate]; cbn [rbind] in H.
  2:{ injection H as <-. split; [apply says_nothing|]. exists x, y, rest. split; [reflexivity|]. cbn. split; [reflexivity|].
      intros ck ci Hin Ha Hp Ho. apply (found_nothing E _ _ _ _ Hi) with (k := ck) (i := ci) in Ec; [|intros z [<-|[]]; apply ADDRESS_not_text|exact Hin].
      apply Ec. split; [intros t Et; injection Et as <-; exact Ha|]. split; [intros q [<-|[]]; exact Hp|]. intros z [<-|[]]. exact Ho. }
  apply found_item in Ec as (ci & Hci & Wt & Wp & Wc); [|exact Hi|intros z [<-|[]]; apply ADDRESS_not_text].
  rewrite (value_of_id E m ck ci Hi Hd Hci) in H. cbn [rbind] in H.
  assert (Cpart : exists ci, In (ck, ci) (m_hw m) /\ is_a c ci /\ present E ci None /\ only_value (i_props ci) ADDRESS (VStr x)).
  { exists ci. split; [exact Hci|]. split; [now apply Wt|]. split; [apply Wp; now left|]. exact (Wc _ (or_introl eq_refl)). }
  assert (PC : plain_conditions (e_ver E) [(PARENT, Some (VStr ck)); (ADDRESS_ON_PARENT, Some (VStr y))]).
  { intros z [<-|[<-|[]]]; [apply PARENT_not_text|apply AOP_not_text]. }
  destruct (find_item E (m_hw m) None _ None) as [[dk|]|] eqn:Ed; [| |discriminate]; cbn [rbind] in H.
  2:{ injection H as <-. split.
      - constructor; cbn [fst snd]; intros; try discriminate. injection H as <-. eauto.
      - exists x, y, rest. split; [reflexivity|]. cbn [fst snd]. destruct Cpart as (ci' & C1 & C2 & C3 & C4).
        exists ci'. split; [exact C1|]. split; [exact C2|]. split; [exact C3|]. split; [exact C4|].
        intros k i Hin Hp H1 H2. apply (found_nothing E _ _ _ _ Hi PC Ed k i Hin). split; [discriminate|].
        split; [intros q [<-|[]]; exact Hp|]. intros z [<-|[<-|[]]]; assumption. }
  apply found_item in Ed as (di & Hdi & _ & Dp & Dc); [|exact Hi|exact PC].
  assert (Dpart : exists i, In (dk, i) (m_hw m) /\ only_value (i_props i) PARENT (VStr ck) /\ only_value (i_props i) ADDRESS_ON_PARENT (VStr y)).
  { exists di. split; [exact Hdi|]. split; [exact (Dc _ (or_introl eq_refl))|exact (Dc _ (or_intror (or_introl eq_refl)))]. }
  assert (Post : forall r', snd (fst r') = Some ck -> snd r' = Some dk -> says E m r' -> r = r' -> says E m r /\ exists x0 y0 rest0, x :: y :: rest = x0 :: y0 :: rest0 /\
      match snd (fst r) with
      | Some ck => exists ci, In (ck, ci) (m_hw m) /\ is_a c ci /\ present E ci None /\ only_value (i_props ci) ADDRESS (VStr x0) /\
          match snd r with
          | Some k => exists i, In (k, i) (m_hw m) /\ only_value (i_props i) PARENT (VStr ck) /\ only_value (i_props i) ADDRESS_ON_PARENT (VStr y0)
          | None => forall k i, In (k, i) (m_hw m) -> present E i None -> only_value (i_props i) PARENT (VStr ck) ->
                      ~ only_value (i_props i) ADDRESS_ON_PARENT (VStr y0)
          end
      | None => r = nothing /\ forall ck ci, In (ck, ci) (m_hw m) -> is_a c ci -> present E ci None -> ~ only_value (i_props ci) ADDRESS (VStr x0)
      end).
  { intros r' R1 R2 S ->. split; [exact S|]. exists x, y, rest. split; [reflexivity|]. rewrite R1, R2.
    destruct Cpart as (ci' & C1 & C2 & C3 & C4). exists ci'. repeat (split; [assumption|]). exact Dpart. }
  destruct (value_of E m dk HOST_RESOURCE) as [[hv|]|] eqn:Eh; [| |discriminate]; cbn [rbind] in H.
  - destruct hv as [s|]; [|discriminate]. cbn [host_text rbind] in H.
    destruct (behind_drive E m s) as [[f d]|] eqn:Eb; [|discriminate]. cbn [rbind fst snd] in H. injection H as <-.
    apply (HR_value E m dk di) in Eh as [p Hp]; [|exact Hi|exact Hdi].
    assert (Dr : drive_ref m dk s) by now exists di, p.
    apply (behind_spec E m dk s f d Hl Pi Dr) in Eb as (B1 & B2 & B3 & B4 & B5).
    apply (Post (f, d, Some ck, Some dk)); try reflexivity. constructor; cbn [fst snd].
    + intros j Hj. destruct (B1 j Hj) as (x0 & Hx0 & _). eauto.
    + intros j Hj. destruct (B2 j Hj) as (y0 & Hy0 & _). eauto.
    + exact B3.
    + exact B4.
    + exact B5.
    + intros ck' E0. injection E0 as <-. eauto.
    + intros k E0. injection E0 as <-. split; [exists di; split; [exact Hdi|apply Dp; now left]|eauto].
    + intros j y0 s' k' Hj Hy0 Hs' Hd'. exists dk, s. split; [reflexivity|]. split; [exact Dr|].
      destruct (B2 j Hj) as (y1 & Hy1 & Hy2). now rewrite (disk_at_fun _ _ _ _ _ Hy0 Hy1).
    + intros j x0 s' k' id Hj Hx0 Hs' Hid Hr. exists dk, s. split; [reflexivity|]. split; [exact Dr|].
      destruct (B1 j Hj) as (x1 & Hx1 & Hx2). now rewrite (file_at_fun _ _ _ _ _ Hx0 Hx1).
  - injection H as <-. apply (Post (None, None, Some ck, Some dk)); try reflexivity.
    constructor; cbn [fst snd]; intros; try discriminate.
    + injection H as <-. eauto.
    + injection H as <-. split; [exists di; split; [exact Hdi|apply Dp; now left]|eauto].
Qed.

(** ** Several searches together *)

Definition r_file (r : found) := fst (fst (fst r)).
Definition r_disk (r : found) := snd (fst (fst r)).
Definition r_ctrl (r : found) := snd (fst r).
Definition r_drive (r : found) := snd r.

Lemma nat_eqb_eq : forall a b, Nat.eqb a b = true <-> a = b.
Proof. exact Nat.eqb_eq. Qed.

Lemma map_Some : forall (B : Type) (g : found -> option B) rs x, In (Some x) (map g rs) <-> exists r, In r rs /\ g r = Some x.
Proof. intros B g rs x. rewrite in_map_iff. split; intros (r & A & C); exists r; tauto. Qed.

Section Merge.
  Context {B : Type} (eqb : B -> B -> bool) (Heq : forall a b, eqb a b = true <-> a = b) (g : found -> option B).
  Lemma merge_None : forall rs r, check_for_conflict eqb (map g rs) = Ok None -> In r rs -> g r = None.
  Proof.
    intros rs r H Hr. destruct (g r) as [x|] eqn:E; [|reflexivity]. exfalso.
    apply (conflict_None B eqb (map g rs) Heq H x). apply map_Some. eauto.
  Qed.
  Lemma merge_Some : forall rs x, check_for_conflict eqb (map g rs) = Ok (Some x) -> exists r, In r rs /\ g r = Some x.
  Proof. intros rs x H. apply map_Some. now apply (conflict_Some B eqb (map g rs) x Heq H). Qed.
  Lemma merge_same : forall rs o r x, check_for_conflict eqb (map g rs) = Ok o -> In r rs -> g r = Some x -> o = Some x.
  Proof.
    intros rs [y|] r x H Hr E.
    - f_equal. symmetry. apply (conflict_Some B eqb (map g rs) y Heq H). apply map_Some. eauto.
    - rewrite (merge_None rs r H Hr) in E. discriminate.
  Qed.
End Merge.

Theorem merged_says : forall E m rs f d c i, (forall r, In r rs -> says E m r) ->
  check_for_conflict Nat.eqb (map r_file rs) = Ok f -> check_for_conflict Nat.eqb (map r_disk rs) = Ok d ->
  check_for_conflict str_eqb (map r_ctrl rs) = Ok c -> check_for_conflict str_eqb (map r_drive rs) = Ok i ->
  (forall j j' x y, f = Some j -> d = Some j' -> file_at (e_ver E) m j x -> disk_at (e_ver E) m j' y ->
     get_attr y (DISK_FILE_REF (e_ver E)) = get_attr x (FILE_ID (e_ver E))) ->
  says E m (f, d, c, i).
Proof.
  intros E m rs f d c i HS Hf Hd Hc Hi Hb. constructor; cbn [fst snd].
  - intros j ->. apply (merge_Some _ nat_eqb_eq) in Hf as (r & Hr & Er). now apply (s_file _ _ _ (HS r Hr)).
  - intros j ->. apply (merge_Some _ nat_eqb_eq) in Hd as (r & Hr & Er). now apply (s_disk _ _ _ (HS r Hr)).
  - exact Hb.
  - intros j x -> -> Hx. apply (merge_Some _ nat_eqb_eq) in Hf as (r & Hr & Er).
    apply (s_no_disk _ _ _ (HS r Hr) j x Er); [|exact Hx]. now apply (merge_None _ nat_eqb_eq r_disk rs).
  - intros j y -> -> Hy. apply (merge_Some _ nat_eqb_eq) in Hd as (r & Hr & Er).
    apply (s_no_file _ _ _ (HS r Hr) j y); [|exact Er|exact Hy]. now apply (merge_None _ nat_eqb_eq r_file rs).
  - intros ck ->. apply (merge_Some _ str_eqb_eq) in Hc as (r & Hr & Er). now apply (s_ctrl _ _ _ (HS r Hr)).
  - intros k ->. apply (merge_Some _ str_eqb_eq) in Hi as (r & Hr & Er).
    destruct (s_drive _ _ _ (HS r Hr) k Er) as [A [ck Ck]]. split; [exact A|]. exists ck.
    exact (merge_same _ str_eqb_eq r_ctrl rs c r ck Hc Hr Ck).
  - intros j y s k' -> Hy Hs Ho. apply (merge_Some _ nat_eqb_eq) in Hd as (r & Hr & Er).
    destruct (s_disk_drive _ _ _ (HS r Hr) j y s k' Er Hy Hs Ho) as (k & s' & K & R). exists k, s'. split; [|exact R].
    exact (merge_same _ str_eqb_eq r_drive rs i r k Hi Hr K).
  - intros j x s k' id -> Hx Hs Hid Ho. apply (merge_Some _ nat_eqb_eq) in Hf as (r & Hr & Er).
    destruct (s_file_drive _ _ _ (HS r Hr) j x s k' id Er Hx Hs Hid Ho) as (k & s' & K & R). exists k, s'. split; [|exact R].
    exact (merge_same _ str_eqb_eq r_drive rs i r k Hi Hr K).
Qed.
