(** Whole runs of add-file, add-disk and remove-file: the changed package can be written and is
    read again. *)
From Coq Require Import List Ascii Bool ZArith Lia.
Import ListNotations.
From Verif Require Import PyBase PyBaseProofs PyDict PyDictProofs XmlModel XmlSpec XmlProofs NamesModel ItemModel ItemSpec HardwareModel HardwareSpec HardwareProofs HardwareIdProofs UpdateHistoryProofs RereadSpec
  ProfileModel ProfileSpec NetworkModel DriveModel DriveSpec RefreshModel RefreshSpec InfoModel PlatformModel PathSpec ManifestSpec TarModel OpenModel OpenSpec OpenProofs SaveModel SaveSpec SaveProofs EditHwTreeProofs EditHwConfigProofs
  CommandModel CommandSpec CommandProofs2 CommandFileModel.
From Verif Require InfoProfileProofs.

(** ** The hardware changes by the operations of C18 *)
Lemma hw_one : forall v h h', hw_step v h h' -> hw_steps v h h'.
Proof. intros v h h' H. exact (HS_step _ _ _ _ (HS_refl _ _) H). Qed.
Lemma hset_hset : forall k i j h, hset k j (hset k i h) = hset k j h.
Proof. intros k i j h. unfold hset. induction h as [|[x a] h IH]; cbn; [now rewrite str_eqb_refl|]. destruct (str_eqb k x) eqn:X; cbn; rewrite X; [reflexivity|now rewrite IH]. Qed.
Lemma hset_same : forall k i h, hitem k h = Ok i -> hset k i h = h.
Proof.
  intros k i h. unfold hitem, hget, hset. induction h as [|[x a] h IH]; cbn; [discriminate|]. destruct (str_eqb k x) eqn:X.
  - intros H. injection H as ->. apply str_eqb_eq in X. now subst.
  - intros H. now rewrite (IH H).
Qed.
Lemma hitem_In : forall k h i, hitem k h = Ok i -> In (k, i) h.
Proof.
  intros k h i. unfold hitem, hget. induction h as [|[x a] h IH]; cbn; [discriminate|]. destruct (str_eqb k x) eqn:X; [|intros H; right; exact (IH H)].
  intros H. injection H as ->. apply str_eqb_eq in X. subst. now left.
Qed.
Lemma hitem_hset : forall k i h, hitem k (hset k i h) = Ok i.
Proof. intros k i h. unfold hitem, hget, hset. now rewrite (dget_dset_same str_eqb str_eqb_eq). Qed.
Lemma set_all_steps : forall E k l h i i', ~ In (INSTANCE_ID (e_ver E)) (map fst l) -> hitem k h = Ok i ->
  fold_result (fun i nx => set_property E i (fst nx) (snd nx) [] true) l i = Ok i' -> hw_steps (e_ver E) h (hset k i' h).
Proof.
  intros E k l. induction l as [|[n x] l IH]; intros h i i' N HI H; cbn [fold_result fst snd] in H.
  - injection H as <-. rewrite (hset_same _ _ _ HI). apply HS_refl.
  - destruct (set_property E i n x [] true) as [i1|] eqn:S; [|discriminate]. cbn [rbind] in H. cbn [map fst] in N.
    apply hw_steps_trans with (hset k i1 h).
    + apply hw_one. apply (H_item_set _ _ E k i n x [] true i1 eq_refl); [intros ->; apply N; now left|exact (hitem_In _ _ _ HI)|exact S].
    + rewrite <- (hset_hset k i1 i' h). apply (IH (hset k i1 h) i1 i'); [intros Hn; apply N; now right|apply hitem_hset|exact H].
Qed.

(** What the commands do to a package *)
Record shifts (v : version) (m m' : vmd) : Prop := {
  sh_steps : hw_steps v (m_hw m) (m_hw m');
  sh_refs : same_but_children (m_refs m) (m_refs m');
  sh_hrefs : (forall e, In e (echildren (m_refs m)) -> etag e = FILE v -> get_attr e (FILE_HREF v) <> None) ->
    forall e, In e (echildren (m_refs m')) -> etag e = FILE v -> get_attr e (FILE_HREF v) <> None;
  sh_disks : (forall s, m_disks m = Some s -> answers (DISK_SECTION v) (DISK_SECTION_ATTRIB v) s) ->
    forall s, m_disks m' = Some s -> answers (DISK_SECTION v) (DISK_SECTION_ATTRIB v) s }.
Lemma shifts_refl : forall v m, shifts v m m.
Proof. intros v m. constructor; auto; [apply HS_refl|apply sbc_refl]. Qed.
Lemma shifts_trans : forall v a b c, shifts v a b -> shifts v b c -> shifts v a c.
Proof. intros v a b c [A1 A2 A3 A4] [B1 B2 B3 B4]. constructor; auto; [exact (hw_steps_trans _ _ _ _ A1 B1)|exact (sbc_trans _ _ _ A2 B2)]. Qed.
Lemma shifts_hw : forall v m h, hw_steps v (m_hw m) h -> shifts v m (with_hw h m).
Proof. intros v m h H. constructor; auto. apply sbc_refl. Qed.

Lemma set_props_shifts : forall E m k l m', ~ In (INSTANCE_ID (e_ver E)) (map fst l) -> set_props E m k l = Ok m' -> shifts (e_ver E) m m'.
Proof.
  intros E m k l m' N H. unfold set_props in H. destruct (hitem k (m_hw m)) as [i|] eqn:I; [|discriminate]. cbn [rbind] in H.
  destruct (fold_result _ l i) as [i'|] eqn:F; [|discriminate]. cbn [rbind] in H. injection H as <-. apply shifts_hw. exact (set_all_steps E k l _ i i' N I F).
Qed.
Lemma new_item_shifts : forall E m rt P k h, new_item E (m_hw m) rt P = Ok (k, h) -> shifts (e_ver E) m (with_hw h m).
Proof. intros E m rt P k h H. apply shifts_hw, hw_one. exact (H_new _ _ E rt P k h eq_refl H). Qed.
Ltac no_iid := match goal with |- ~ In (INSTANCE_ID ?x) _ => destruct x; vm_compute; intros; repeat match goal with H : _ \/ _ |- _ => destruct H as [H|H] end; try discriminate; try contradiction end.

Lemma controller_shifts : forall E m ct sub addr ctrl m' k, add_controller_device E m ct sub addr ctrl = Ok (m', k) -> shifts (e_ver E) m m'.
Proof.
  intros E m ct sub addr ctrl m' k H. unfold add_controller_device in H. apply InfoProfileProofs.rbind_ok in H as ([m1 k1] & H1 & H).
  assert (S1 : shifts (e_ver E) m m1).
  { destruct ctrl as [c|]; [injection H1 as <- <-; apply shifts_refl|]. apply InfoProfileProofs.rbind_ok in H1 as ([kn hn] & N & H1). cbv zeta in H1. cbn [fst snd] in H1.
    apply InfoProfileProofs.rbind_ok in H1 as (a & _ & H1). apply InfoProfileProofs.rbind_ok in H1 as ([|] & _ & H1); [discriminate|]. apply InfoProfileProofs.rbind_ok in H1 as (m2 & S & H1). injection H1 as <- <-.
    apply shifts_trans with (with_hw hn m); [exact (new_item_shifts _ _ _ _ _ _ N)|]. apply (set_props_shifts _ _ _ _ _) in S; [exact S|]. cbn [map fst]. no_iid. }
  destruct sub as [x|]; [|injection H as <- <-; exact S1]. apply InfoProfileProofs.rbind_ok in H as (m3 & S & H). injection H as <- <-. cbn [fst snd] in S. apply shifts_trans with m1; [exact S1|].
  apply (set_props_shifts _ _ _ _ _) in S; [exact S|]. cbn [map fst]. no_iid.
Qed.
Lemma device_shifts : forall E m dt addr name desc disk file ctrl drive m' k, add_disk_device E m dt addr name desc disk file ctrl drive = Ok (m', k) -> shifts (e_ver E) m m'.
Proof.
  intros E m dt addr name desc disk file ctrl drive m' k H. unfold add_disk_device in H. cbv zeta in H. apply InfoProfileProofs.rbind_ok in H as ([[m1 k1] nm] & H1 & H).
  assert (S1 : shifts (e_ver E) m m1).
  { destruct drive as [c|]; [injection H1 as <- <- <-; apply shifts_refl|]. apply InfoProfileProofs.rbind_ok in H1 as ([[m2 k2] n2] & C & H1). cbn [fst snd] in H1. injection H1 as <- <- <-.
    unfold create_disk_device in C. apply InfoProfileProofs.rbind_ok in C as (inst & _ & C). apply InfoProfileProofs.rbind_ok in C as (a & _ & C). apply InfoProfileProofs.rbind_ok in C as (ct & _ & C).
    apply InfoProfileProofs.rbind_ok in C as ([|] & _ & C); [discriminate|]. apply InfoProfileProofs.rbind_ok in C as (n3 & _ & C). apply InfoProfileProofs.rbind_ok in C as ([kn hn] & N & C). cbn [fst snd] in C.
    apply InfoProfileProofs.rbind_ok in C as (m3 & S & C). injection C as <- <- <-. apply shifts_trans with (with_hw hn m); [exact (new_item_shifts _ _ _ _ _ _ N)|].
    apply (set_props_shifts _ _ _ _ _) in S; [exact S|]. cbn [map fst]. no_iid. }
  apply InfoProfileProofs.rbind_ok in H as (t & _ & H). apply InfoProfileProofs.rbind_ok in H as (host & _ & H). apply InfoProfileProofs.rbind_ok in H as (m2 & S & H). injection H as <- <-.
  apply shifts_trans with m1; [exact S1|]. apply (set_props_shifts _ _ _ _ _) in S; [exact S|]. destruct nm as [n|], desc as [d|]; cbn [map fst app]; no_iid.
Qed.

Lemma update_at_In : forall A (f : A -> A) x j l, In x (update_at j f l) -> In x l \/ exists y, x = f y.
Proof. intros A f x j l. revert j. induction l as [|a l IH]; intros [|j] H; cbn in H; auto; destruct H as [H|H]; subst; cbn; [right; now exists a|tauto|tauto|]. destruct (IH j H) as [H'|H']; tauto. Qed.
Lemma insert_at_In : forall A (x y : A) j l, In x (insert_at j y l) -> In x l \/ x = y.
Proof. intros A x y j. induction j as [|j IH]; intros [|a l] H; cbn in H. { destruct H as [H|[]]; auto. } { destruct H as [H|H]; auto. } { destruct H as [H|[]]; auto. } { destruct H as [H|H]; [left; now left|]. destruct (IH l H); [left; now right|now right]. } Qed.
Lemma remove_at_In : forall A (x : A) j l, In x (remove_at j l) -> In x l.
Proof. intros A x j. induction j as [|j IH]; intros [|a l] H; cbn in *; auto. destruct H; auto. Qed.

Lemma add_file_shifts : forall v m im id file disk m' j, add_file v m im id file disk = Ok (m', j) -> shifts v m m'.
Proof.
  intros v m im id file disk m' j H. unfold add_file in H. cbv zeta in H.
  assert (NH : get_attr (file_elem v id (im_name im) (zdec (im_size im))) (FILE_HREF v) <> None) by (destruct v; vm_compute; discriminate).
  assert (G : forall cs src, (forall e, In e cs -> In e (echildren (m_refs m)) \/ e = file_elem v id (im_name im) (zdec (im_size im))) -> shifts v m (with_sources src (with_refs (set_children cs (m_refs m)) m))).
  { intros cs src HC. constructor; cbn [with_sources with_refs m_hw m_refs m_disks]; auto; [apply HS_refl|now destruct (m_refs m)|]. intros HR e He Te.
    assert (Ec : echildren (set_children cs (m_refs m)) = cs) by now destruct (m_refs m). rewrite Ec in He. destruct (HC e He) as [Hi|Hi]; [now apply HR|now rewrite Hi]. }
  destruct file as [f|]; [|destruct disk as [d|]].
  - apply InfoProfileProofs.rbind_ok in H as (href & _ & H). injection H as <- <-. apply G. intros e He. apply update_at_In in He as [He|[y He]]; auto.
  - apply InfoProfileProofs.rbind_ok in H as (sec & _ & H). destruct (index_nat _ _); [|discriminate]. apply InfoProfileProofs.rbind_ok in H as (j' & _ & H). injection H as <- <-. apply G. intros e He. now apply insert_at_In in He.
  - injection H as <- <-. apply G. intros e He. apply in_app_or in He as [He|[He|[]]]; auto.
Qed.
Lemma add_disk_shifts : forall fuel v m im id dt disk m' j, add_disk fuel v m im id dt disk = Ok (m', j) -> shifts v m m'.
Proof.
  intros fuel v m im id dt disk m' j H. unfold add_disk in H.
  assert (G : forall d, (forall s, d = Some s -> (exists s0 cs, m_disks m = Some s0 /\ s = set_children cs s0) \/ (exists cs, s = set_children cs (new_disk_section v))) -> shifts v m (with_disks d m)).
  { intros d HD. constructor; cbn [with_disks m_hw m_refs m_disks]; auto; [apply HS_refl|apply sbc_refl|]. intros HS s Hs. destruct (HD s Hs) as [(s0 & cs & E0 & ->)|(cs & ->)].
    - apply (answers_like _ _ s0); [now destruct s0|now destruct s0|now apply HS].
    - apply (answers_like _ _ (new_disk_section v)); [reflexivity|reflexivity|]. split; [reflexivity|]. intros k x Hk. destruct v; cbn in Hk; try contradiction. destruct Hk as [Hk|[]]. injection Hk as <- <-. reflexivity. }
  destruct (negb _).
  - destruct disk as [d|]; [|injection H as <- <-; apply shifts_refl]. destruct (m_disks m) as [s|] eqn:D; [|injection H as <- <-; apply shifts_refl]. injection H as <- <-. apply G. intros s' Hs.
    destruct (existsb _ _); [|discriminate]. injection Hs as <-. left. now exists s, (remove_at d (echildren s)).
  - cbv zeta in H. apply InfoProfileProofs.rbind_ok in H as (cap & _ & H).
    assert (Q : forall cs, (exists s0 cs0, m_disks m = Some s0 /\ set_children cs (match m_disks m with Some s => s | None => new_disk_section v end) = set_children cs0 s0) \/
      (exists cs0, set_children cs (match m_disks m with Some s => s | None => new_disk_section v end) = set_children cs0 (new_disk_section v))).
    { intros cs. destruct (m_disks m) as [s|]; [left; now exists s, cs|right; now exists cs]. }
    destruct disk as [d|].
    + apply InfoProfileProofs.rbind_ok in H as (i & _ & H). injection H as <- <-. apply G. intros s Hs. injection Hs as <-. apply Q.
    + injection H as <- <-. apply G. intros s Hs. injection Hs as <-. apply Q.
Qed.

Lemma worker_shifts : forall agree E fuel guess m im dt fid c st a n ds m' k, add_disk_worker agree E fuel guess m im dt fid c st a n ds = Ok (m', k) -> shifts (e_ver E) m m'.
Proof.
  intros agree E fuel guess m im dt fid c st a n ds m' k H. unfold add_disk_worker in H. cbv zeta in H. apply InfoProfileProofs.rbind_ok in H as ([[[f d] c0] dr] & _ & H).
  apply InfoProfileProofs.rbind_ok in H as (ct & _ & H). apply InfoProfileProofs.rbind_ok in H as ([ctrl addr] & _ & H). apply InfoProfileProofs.rbind_ok in H as (? & _ & H). apply InfoProfileProofs.rbind_ok in H as (? & _ & H).
  apply InfoProfileProofs.rbind_ok in H as (id1 & _ & H). apply InfoProfileProofs.rbind_ok in H as (id2 & _ & H). apply InfoProfileProofs.rbind_ok in H as ([mf jf] & F & H). apply InfoProfileProofs.rbind_ok in H as ([md jd] & D & H). cbn [fst snd] in *.
  apply InfoProfileProofs.rbind_ok in H as (parts & _ & H). apply InfoProfileProofs.rbind_ok in H as (sub & _ & H). apply InfoProfileProofs.rbind_ok in H as ([mc kc] & C & H). cbn [fst snd] in *.
  apply shifts_trans with mf; [exact (add_file_shifts _ _ _ _ _ _ _ _ F)|]. apply shifts_trans with md; [exact (add_disk_shifts _ _ _ _ _ _ _ _ _ D)|].
  apply shifts_trans with mc; [exact (controller_shifts _ _ _ _ _ _ _ _ C)|exact (device_shifts _ _ _ _ _ _ _ _ _ _ _ _ H)].
Qed.
Lemma add_run_shifts : forall agree E m im fid m', add_file_run agree E m im fid = Ok m' -> shifts (e_ver E) m m'.
Proof.
  intros agree E m im fid m' H. unfold add_file_run in H. cbv zeta in H. apply InfoProfileProofs.rbind_ok in H as ([[[f d] c0] dr] & _ & H).
  apply InfoProfileProofs.rbind_ok in H as (file & _ & H). apply InfoProfileProofs.rbind_ok in H as (id & _ & H). apply InfoProfileProofs.rbind_ok in H as (? & _ & H).
  destruct id as [s|]; [|discriminate]. apply InfoProfileProofs.rbind_ok in H as ([mf jf] & F & H). cbn [fst] in H. injection H as <-. exact (add_file_shifts _ _ _ _ _ _ _ _ F).
Qed.
Lemma remove_run_shifts : forall agree E m path fid m', remove_file_run agree E m path fid = Ok m' -> shifts (e_ver E) m m'.
Proof.
  intros agree E m path fid m' H. unfold remove_file_run in H. cbv zeta in H. apply InfoProfileProofs.rbind_ok in H as ([[[f1 d1] c1] i1] & _ & H). apply InfoProfileProofs.rbind_ok in H as ([[[f2 d2] c2] i2] & _ & H).
  apply InfoProfileProofs.rbind_ok in H as (file & _ & H). apply InfoProfileProofs.rbind_ok in H as (disk & _ & H). apply InfoProfileProofs.rbind_ok in H as (drive & _ & H). destruct file as [f|]; [|discriminate].
  do 5 (apply InfoProfileProofs.rbind_ok in H as (? & _ & H)). clear - H. unfold remove_file in H. cbv zeta in H. apply InfoProfileProofs.rbind_ok in H as ([h|] & _ & H); [|discriminate].
  destruct (negb _); [discriminate|]. apply InfoProfileProofs.rbind_ok in H as (m2 & H2 & H).
  set (m1 := with_sources _ _) in *.
  assert (S1 : shifts (e_ver E) m m1).
  { subst m1. constructor; cbn [with_sources with_refs m_hw m_refs m_disks]; auto; [apply HS_refl|now destruct (m_refs m)|]. intros HR e He Te. assert (Ec : forall cs, echildren (set_children cs (m_refs m)) = cs) by now destruct (m_refs m).
    rewrite Ec in He. apply HR; [exact (remove_at_In _ _ _ _ He)|exact Te]. }
  assert (S2 : shifts (e_ver E) m1 m2).
  { destruct disk as [d|]; [|injection H2 as <-; apply shifts_refl]. apply InfoProfileProofs.rbind_ok in H2 as (sec & TD & H2). injection H2 as <-. unfold the_disks in TD. destruct (m_disks m1) as [s|] eqn:D; [|discriminate]. injection TD as ->.
    constructor; cbn [with_disks m_hw m_refs m_disks]; auto; [apply HS_refl|apply sbc_refl|]. intros HS s Hs. injection Hs as <-. apply (answers_like _ _ sec); [now destruct sec|now destruct sec|now apply HS]. }
  apply shifts_trans with m1; [exact S1|]. apply shifts_trans with m2; [exact S2|].
  destruct drive as [k|]; [|injection H as <-; apply shifts_refl]. apply InfoProfileProofs.rbind_ok in H as (t & _ & H). destruct (opt_value_eqb t _).
  - apply InfoProfileProofs.rbind_ok in H as (i & I & H). apply InfoProfileProofs.rbind_ok in H as (i' & S & H). injection H as <-. apply shifts_hw, hw_one.
    apply (H_item_set _ _ E k i HOST_RESOURCE (IStr []) [] true i' eq_refl); [destruct (e_ver E); discriminate|exact (hitem_In _ _ _ I)|exact S].
  - destruct (opt_value_eqb t _); [|discriminate]. apply InfoProfileProofs.rbind_ok in H as (h' & D & H). injection H as <-. apply shifts_hw, hw_one. exact (H_delete _ _ E k h' eq_refl D).
Qed.

(** ** The changed package is consistent and can be written *)
Section Changed.
Variables (E : env) (o : ovf) (new : option image) (m' : vmd).
Notation v := (o_version o).
Notation EO := (env_of E o).
Notation o1 := (package_of_vmd o new m').
Hypothesis K : consistent o.
Hypothesis SH : shifts v (vmd_of o) m'.

Lemma insert_filter : forall (f : elem -> bool) tag s l, filter f (insert_before tag s l) = if f s then filter f (insert_before tag s l) else filter f l.
Proof. intros f tag s l. destruct (f s) eqn:F; [reflexivity|]. induction l as [|c l IH]; cbn; [now rewrite F|]. destruct (str_eqb (etag c) tag); cbn; [now rewrite F|now rewrite IH]. Qed.
Lemma insert_none : forall (f : elem -> bool) tag s l, f s = true -> filter f l = [] -> filter f (insert_before tag s l) = [s].
Proof.
  intros f tag s l F. induction l as [|c l IH]; cbn; [now rewrite F|]. intros H. destruct (f c) eqn:C; [discriminate|]. destruct (str_eqb (etag c) tag); cbn; [now rewrite F, C, H|rewrite C; exact (IH H)].
Qed.
Lemma children_set : forall cs e, echildren (set_children cs e) = cs.
Proof. intros cs e. now destruct e. Qed.
Lemma now_filter : forall (f : elem -> bool) d, (forall s, d = Some s -> answers (DISK_SECTION v) (DISK_SECTION_ATTRIB v) s) -> (forall x, answers (DISK_SECTION v) (DISK_SECTION_ATTRIB v) x -> f x = false) ->
  filter f (echildren (envelope_now o d)) = filter f (echildren (o_envelope o)).
Proof.
  intros f d HD HF. unfold envelope_now. cbv zeta. destruct (o_disks o) as [s0|], d as [s|]; try reflexivity; rewrite children_set.
  - induction (echildren (o_envelope o)) as [|c l IH]; [reflexivity|]. cbn [filter]. destruct (child_match (DISK_SECTION v) (DISK_SECTION_ATTRIB v) c) eqn:M; cbn [negb filter].
    + apply child_match_spec in M. now rewrite (HF c M).
    + now rewrite IH.
  - rewrite insert_filter. now rewrite (HF s (HD s eq_refl)).
Qed.
Lemma now_like : forall d, etag (envelope_now o d) = etag (o_envelope o) /\ eattrib (envelope_now o d) = eattrib (o_envelope o).
Proof. intros d. unfold envelope_now. cbv zeta. destruct (o_disks o), d; now destruct (o_envelope o). Qed.
Lemma disks_answer : forall s, m_disks m' = Some s -> answers (DISK_SECTION v) (DISK_SECTION_ATTRIB v) s.
Proof.
  apply (sh_disks _ _ _ SH). cbn [vmd_of m_disks]. intros s Hs. pose proof (k_disks _ K) as KD. rewrite Hs in KD. exact (proj1 KD).
Qed.
Lemma now_answering : forall s, apart s (sec_disks v) -> answering (fst s) (snd s) (envelope_now o (m_disks m')) = answering (fst s) (snd s) (o_envelope o).
Proof.
  intros s A. apply now_filter; [exact disks_answer|]. intros x Hx. destruct (child_match (fst s) (snd s) x) eqn:M; [|reflexivity]. apply child_match_spec in M. exfalso. exact (A x M Hx).
Qed.
Lemma now_holds : forall s x, apart s (sec_disks v) -> SaveProofs.holds (o_envelope o) s x -> SaveProofs.holds (envelope_now o (m_disks m')) s x.
Proof.
  intros s [x|] A H; unfold SaveProofs.holds, holds_section in *.
  - destruct H as [H (e0 & H0)]. split; [exact H|]. exists e0. apply only_filter. rewrite (now_answering s A). now apply only_filter.
  - apply none_filter. rewrite (now_answering s A). now apply none_filter.
Qed.
Lemma now_disks : SaveProofs.holds (envelope_now o (m_disks m')) (sec_disks v) (m_disks m').
Proof.
  pose proof (k_disks _ K) as KD. pose proof disks_answer as DA. unfold SaveProofs.holds, envelope_now in *. cbv zeta. cbn [sec_disks fst snd]. destruct (m_disks m') as [s|]; [split; [now apply DA|]|]; destruct (o_disks o) as [s0|].
  - exact (proj2 KD).
  - exists s. apply only_filter. unfold answering. rewrite children_set. apply insert_none; [apply child_match_spec; now apply DA|]. exact (proj1 (none_filter _ _ _) KD).
  - unfold holds_section. apply none_filter. unfold answering. rewrite children_set. induction (echildren (o_envelope o)) as [|c l IH]; [reflexivity|]. cbn [filter]. destruct (child_match (DISK_SECTION v) (DISK_SECTION_ATTRIB v) c) eqn:M; cbn [negb filter]; [exact IH|].
    rewrite M. exact IH.
  - exact KD.
Qed.
Lemma now_consistent : consistent o1.
Proof.
  pose proof now_disks as ND. pose proof (now_like (m_disks m')) as [T _]. pose proof K as [K1 K2 K3 K4 K5 K6 K7 K8 K9 K10 K11 K12].
  destruct (apart_root v) as (R1 & R2 & R3 & R4 & R5 & R6 & R7 & R8 & R9 & R10 & R11 & R12 & R13 & R14 & R15 & R16 & R17 & R18).
  assert (DD : apart (sec_deploy v) (sec_disks v)) by (destruct v; apart_now).
  constructor; cbn [package_of_vmd o_version o_envelope o_references o_disks o_networks o_deploy o_system o_product o_annotation o_hardware_section o_profiles o_platform]; auto.
  - now rewrite T.
  - assert (X : SaveProofs.holds (envelope_now o (m_disks m')) (sec_refs v) (Some (o_references o))) by (apply now_holds; [exact R6|exact K2]).
    destruct X as [X1 X2]. split; [|exact X2]. destruct (sh_refs _ _ _ SH) as (S1 & S2 & _). apply (answers_like _ _ (o_references o)); [now rewrite <- S1|now rewrite <- S2|exact X1].
  - exact (now_holds (sec_nets v) _ R15 K4).
  - exact (now_holds (sec_deploy v) _ DD K5).
  - exact (now_holds (sec_system v) _ R2 K6).
  - exact (sh_hrefs _ _ _ SH K12).
Qed.
Lemma now_beyond : beyond (envelope_sections v) (o_envelope o1) = beyond (envelope_sections v) (o_envelope o).
Proof.
  unfold beyond. apply now_filter; [exact disks_answer|]. intros x Hx. apply negb_false_iff. apply existsb_exists. exists (DISK_SECTION v, DISK_SECTION_ATTRIB v). split; [right; now left|]. now apply child_match_spec.
Qed.

Hypothesis RH : read_hardware EO (o_hardware_section o) = Ok (o_hardware o).
Lemma now_good : good_edits v (o_hardware o) (m_hw m').
Proof.
  pose proof (read_hardware_ok _ _ _ RH) as [(I0 & _) _]. pose proof (sh_steps _ _ _ SH) as H. change (m_hw (vmd_of o)) with (o_hardware o) in H. change (e_ver EO) with v in I0.
  induction H as [|g g' H IH ST]; [split; [apply ED_refl|exact I0]|]. destruct IH as [IH1 IH2]. destruct (step_edits v g g' IH2 ST) as [S1 S2]. split; [exact (edits_trans _ _ _ _ IH1 S1)|exact S2].
Qed.
Lemma now_reachable : hw_reachable v (m_hw m').
Proof.
  pose proof (sh_steps _ _ _ SH) as H. change (m_hw (vmd_of o)) with (o_hardware o) in H. induction H as [|g g' H IH ST]; [exact (H_read v EO _ _ eq_refl RH)|exact (H_step _ _ _ IH ST)].
Qed.
Lemma now_unchanged : plain_items v (o_hardware_section o) -> looks_unchanged v (m_hw m') (o_hardware_section o) ->
  exists h0, read_hardware EO (o_hardware_section o) = Ok h0 /\ same_devices (m_hw m') h0 /\ plain_items v (o_hardware_section o).
Proof.
  intros PI [L NM]. destruct (read_hardware_ok _ _ _ RH) as [(I0 & NI & L0) M0]. change (e_ver EO) with v in *.
  destruct now_good as [ED I1]. destruct (edits_keep v _ _ I0 ED) as [KE _].
  assert (LE : length (o_hardware o) <= length (m_hw m')) by (rewrite L; exact L0).
  exists (o_hardware o). split; [exact RH|split; [|exact PI]]. intros k ps. split.
  - intros (i & Hi & Hp). destruct (KE k i Hi (NM k i Hi)) as (i0 & H0 & _ & E0). exists i0. split; [exact H0|congruence].
  - intros (i & Hi & Hp). assert (IN : incl (map fst (m_hw m')) (map fst (o_hardware o))).
    { intros x Hx. apply in_map_iff in Hx as ([k1 i1] & <- & Hx). destruct (KE k1 i1 Hx (NM k1 i1 Hx)) as (i0 & H0 & _). exact (in_map fst _ _ H0). }
    assert (RV : incl (map fst (o_hardware o)) (map fst (m_hw m'))) by (apply (NoDup_length_incl (proj1 I1)); [now rewrite !map_length|exact IN]).
    assert (Hk : In k (map fst (m_hw m'))) by (apply RV; exact (in_map fst _ _ Hi)). apply in_map_iff in Hk as ([k1 i1] & Ek & H1). cbn [fst] in Ek. subst k1. exists i1. split; [exact H1|].
    destruct (KE k i1 H1 (NM k i1 H1)) as (i0 & H0 & _ & E0). rewrite E0, <- Hp. f_equal. apply (hget_In _ _ _ (proj1 I0)) in H0. apply (hget_In _ _ _ (proj1 I0)) in Hi. congruence.
Qed.
Lemma now_ready : forall w wd output, can_be_written E w wd output o1 -> ready_to_write E w wd output o1.
Proof.
  intros w wd output [C1 C2 C3 C4]. constructor; [constructor|exact C3|exact C4].
  - exact now_reachable.
  - exact C1.
  - exact (now_unchanged C2).
Qed.
End Changed.
