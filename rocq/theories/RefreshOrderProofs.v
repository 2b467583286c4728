(** Bringing the references up to date keeps a package in order, if no file is missing. *)
From Coq Require Import List Ascii ZArith Bool Lia.
Import ListNotations.
From Verif Require Import PyBase PyBaseProofs PyDict PyDictProofs NetworkModel XmlModel NamesModel ItemModel ItemSpec HardwareModel DriveModel DriveSpec
  InfoModel InfoSpec LinkProofs AddProofs RefreshModel RefreshSpec RefreshProofs RefreshOkProofs.
Local Open Scope nat_scope.

Lemma filter_twins : forall ks t l l', Forall2 (same_but ks) l l' ->
  Forall2 (same_but ks) (filter (fun e => str_eqb (etag e) t) l) (filter (fun e => str_eqb (etag e) t) l').
Proof.
  intros ks t l l' F. induction F as [ | x y l l' H F IH]; cbn [filter]; [constructor | ]. rewrite (proj1 H).
  destruct (str_eqb (etag x) t); [now constructor | exact IH].
Qed.
Lemma twins_attr : forall ks k l l', Forall2 (same_but ks) l l' -> ~ In k ks -> map (fun e => get_attr e k) l' = map (fun e => get_attr e k) l.
Proof.
  intros ks k l l' F N. induction F as [ | x y l l' H F IH]; [reflexivity | ]. cbn [map]. destruct H as (_ & _ & _ & _ & A). now rewrite (A k N), IH.
Qed.
Lemma twins_back : forall ks l l' y, Forall2 (same_but ks) l l' -> In y l' -> exists x, In x l /\ same_but ks x y.
Proof.
  intros ks l l' y F H. apply In_nth_error in H as [j Hj]. destruct (Forall2_at _ _ _ _ _ _ _ F Hj) as (x & Hx & R). exists x. split; [now apply nth_error_In in Hx | exact R].
Qed.
Lemma twins_forth : forall ks l l' x, Forall2 (same_but ks) l l' -> In x l -> exists y, In y l' /\ same_but ks x y.
Proof.
  intros ks l l' x F H. apply In_nth_error in H as [j Hj]. destruct (Forall2_at_left _ _ _ _ _ _ _ F Hj) as (y & Hy & R). exists y. split; [now apply nth_error_In in Hy | exact R].
Qed.
Lemma twins_unique : forall ks k l l', Forall2 (same_but ks) l l' -> ~ In k ks -> unique_attr k l -> unique_attr k l'.
Proof.
  intros ks k l l' F N [U1 U2]. split; [ | now rewrite (twins_attr ks k l l' F N)].
  intros y Hy. destruct (twins_back ks l l' y F Hy) as (x & Hx & (_ & _ & _ & _ & A)). rewrite (A k N). now apply U1.
Qed.

Section Order.
Variables (E : env) (m m' : vmd).
Let v : version := e_ver E.
Hypothesis Hh : m_hw m' = m_hw m.
Hypothesis Hs : m_sources m' = m_sources m.
Hypothesis Hf : Forall2 (same_but [FILE_SIZE v]) (files v m) (files v m').
Hypothesis Hd : Forall2 (same_but [DISK_CAPACITY v; DISK_CAP_UNITS v]) (disks v m) (disks v m').

Lemma not_size : ~ In (FILE_HREF v) [FILE_SIZE v] /\ ~ In (FILE_ID v) [FILE_SIZE v].
Proof. destruct (size_apart v) as [A B]. split; intros [C | []]; congruence. Qed.
Lemma not_cap : ~ In (DISK_ID v) [DISK_CAPACITY v; DISK_CAP_UNITS v] /\ ~ In (DISK_FILE_REF v) [DISK_CAPACITY v; DISK_CAP_UNITS v].
Proof. destruct (names_apart v) as (A & B & C & D & F). split; intros [G | [G | []]]; congruence. Qed.
Lemma file_back : forall y, In y (files v m') -> exists x, In x (files v m) /\ get_attr y (FILE_ID v) = get_attr x (FILE_ID v) /\ get_attr y (FILE_HREF v) = get_attr x (FILE_HREF v).
Proof.
  intros y Hy. destruct (twins_back _ _ _ y Hf Hy) as (x & Hx & (_ & _ & _ & _ & A)). exists x. split; [exact Hx | ]. split; apply A; apply not_size.
Qed.
Lemma file_forth : forall x, In x (files v m) -> exists y, In y (files v m') /\ get_attr y (FILE_ID v) = get_attr x (FILE_ID v) /\ get_attr y (FILE_HREF v) = get_attr x (FILE_HREF v).
Proof.
  intros x Hx. destruct (twins_forth _ _ _ x Hf Hx) as (y & Hy & (_ & _ & _ & _ & A)). exists y. split; [exact Hy | ]. split; apply A; apply not_size.
Qed.
Lemma disk_back : forall y, In y (disks v m') -> exists x, In x (disks v m) /\ get_attr y (DISK_ID v) = get_attr x (DISK_ID v) /\ get_attr y (DISK_FILE_REF v) = get_attr x (DISK_FILE_REF v).
Proof.
  intros y Hy. destruct (twins_back _ _ _ y Hd Hy) as (x & Hx & (_ & _ & _ & _ & A)). exists x. split; [exact Hx | ]. split; apply A; apply not_cap.
Qed.
Lemma disk_forth : forall x, In x (disks v m) -> exists y, In y (disks v m') /\ get_attr y (DISK_ID v) = get_attr x (DISK_ID v) /\ get_attr y (DISK_FILE_REF v) = get_attr x (DISK_FILE_REF v).
Proof.
  intros x Hx. destruct (twins_forth _ _ _ x Hd Hx) as (y & Hy & (_ & _ & _ & _ & A)). exists y. split; [exact Hy | ]. split; apply A; apply not_cap.
Qed.

Lemma disk_of_back : forall s y, disk_of v m' s y -> forall x, In x (disks v m) -> get_attr y (DISK_ID v) = get_attr x (DISK_ID v) -> disk_of v m s x.
Proof. intros s y (Hy & id & H1 & H2) x Hx He. split; [exact Hx | ]. exists id. split; [congruence | exact H2]. Qed.
Lemma file_of_back : forall s y, file_of v m' s y -> forall x, In x (files v m) -> get_attr y (FILE_ID v) = get_attr x (FILE_ID v) -> file_of v m s x.
Proof.
  intros s y (Hy & id & H1 & H2) x Hx He. split; [exact Hx | ]. exists id. split; [congruence | ]. destruct H2 as [H2 | (d & D1 & D2)]; [now left | right].
  destruct (disk_back d (proj1 D1)) as (d0 & A & B & C). exists d0. split; [now apply (disk_of_back s d D1) | congruence].
Qed.

Lemma order_kept : orderly E m -> orderly E m'.
Proof.
  intros [O1 O2 O3 O4 O5 O6 O7 O8]. destruct O3 as [L1 L2 L3 L4 L5 L6].
  fold v in L1, L2, L3, L4, L5, L6, O5, O6, O7, O8. constructor; fold v.
  - now rewrite Hh.
  - now rewrite Hh.
  - constructor.
    + exact (twins_unique _ _ _ _ Hf (proj2 not_size) L1).
    + exact (twins_unique _ _ _ _ Hf (proj1 not_size) L2).
    + exact (twins_unique _ _ _ _ Hd (proj1 not_cap) L3).
    + intros d r Hin Hr. destruct (disk_back d Hin) as (d0 & A & B & C). destruct (L4 d0 r A ltac:(congruence)) as (f & F1 & F2).
      destruct (file_forth f F1) as (f' & G1 & G2 & _). exists f'. split; [exact G1 | congruence].
    + rewrite Hh. intros k i p s id H1 H2 H3. destruct (L5 k i p s id H1 H2 H3) as (d & D1 & D2). destruct (disk_forth d D1) as (d' & G1 & G2 & _).
      exists d'. split; [exact G1 | congruence].
    + rewrite Hh. intros k i p s id H1 H2 H3. destruct (L6 k i p s id H1 H2 H3) as (f & F1 & F2). destruct (file_forth f F1) as (f' & G1 & G2 & _).
      exists f'. split; [exact G1 | congruence].
  - unfold plain_drives in *. now rewrite Hh.
  - destruct O5 as [P1 P2]. split.
    + intros f id Hin Hi. destruct (file_back f Hin) as (x & A & B & _). apply (P1 x id A). congruence.
    + intros d id Hin Hi. destruct (disk_back d Hin) as (x & A & B & _). apply (P2 x id A). congruence.
  - intros d d' r Hin Hin' Hr Hr'. apply In_nth_error in Hin as [i Hi]. apply In_nth_error in Hin' as [j Hj].
    destruct (Forall2_at _ _ _ _ _ _ _ Hd Hi) as (x & Hx & (_ & _ & _ & _ & X)). destruct (Forall2_at _ _ _ _ _ _ _ Hd Hj) as (x' & Hx' & (_ & _ & _ & _ & X')).
    rewrite X in Hr by apply not_cap. rewrite X' in Hr' by apply not_cap.
    pose proof (O6 x x' r (nth_error_In _ _ Hx) (nth_error_In _ _ Hx') Hr Hr') as ->.
    assert (i = j) as ->; [ | congruence].
    apply (same_place _ _ (fun _ => true) (fun e => get_attr e (DISK_ID v)) (disks v m) i j x' x'); try assumption; try reflexivity.
    replace (filter (fun _ => true) (disks v m)) with (disks v m); [exact (proj2 L3) | ].
    clear. induction (disks v m) as [ | a l IH]; [reflexivity | cbn [filter]; now rewrite <- IH].
  - unfold one_drive in *. rewrite Hh. intros k i p s k' i' p' s' H1 H2 H3 H4 H5. apply (O7 k i p s k' i' p' s' H1 H2 H3 H4).
    destruct H5 as [(d & D1 & D2) | (f & F1 & F2)]; [left | right].
    + destruct (disk_back d (proj1 D1)) as (x & A & B & _). exists x. split; [now apply (disk_of_back s d D1) | now apply (disk_of_back s' d D2)].
    + destruct (file_back f (proj1 F1)) as (x & A & B & _). exists x. split; [now apply (file_of_back s f F1) | now apply (file_of_back s' f F2)].
  - destruct O8 as [Q1 Q2]. split; [now rewrite Hs | ]. intros h. rewrite Hs, Q2. split.
    + intros (f & F1 & F2). destruct (file_forth f F1) as (f' & G1 & _ & G2). exists f'. split; [exact G1 | congruence].
    + intros (f & F1 & F2). destruct (file_back f F1) as (f' & G1 & _ & G2). exists f'. split; [exact G1 | congruence].
Qed.
End Order.

Lemma Forall2_sub : forall A B (R R' : A -> B -> Prop) l l', (forall x y, R x y -> R' x y) -> Forall2 R l l' -> Forall2 R' l l'.
Proof. intros A B R R' l l' H F. induction F; constructor; auto. Qed.

Section Refreshed.
Variables (E : env) (W : world) (fuel : nat) (m m' : vmd).
Let v : version := e_ver E.
Hypothesis good : measured W.
Hypothesis units : plain_units v m.
Hypothesis O : orderly E m.
Hypothesis all : forall h d, In (h, d) (m_sources m) -> w_exists W h d = true.
Hypothesis done : refresh_files E W fuel m = Ok m'.

Lemma refresh_orderly : orderly E m'.
Proof.
  pose proof (proj1 (o_sourced E m O)) as ND.
  destruct (refresh_state E W fuel m ND good units m' done) as [S1 S2 S3 S4 S5].
  assert (LV : filter (fun nd => w_exists W (fst nd) (snd nd)) (m_sources m) = m_sources m).
  { assert (G : forall x, In x (m_sources m) -> w_exists W (fst x) (snd x) = true) by (intros [h d] H; now apply all).
    clear - G. induction (m_sources m) as [ | x l IH]; [reflexivity | ]. cbn [filter]. rewrite (G x (or_introl eq_refl)). f_equal. apply IH.
    intros y Hy. apply G. now right. }
  rewrite LV in S2, S4, S5.
  assert (KV : filter (stays E (m_sources m)) (echildren (m_refs m)) = echildren (m_refs m)).
  { assert (G : forall x, In x (echildren (m_refs m)) -> stays E (m_sources m) x = true).
    { intros x Hx. unfold stays. destruct (str_eqb (etag x) (FILE (e_ver E))) eqn:T; [ | reflexivity]. apply str_eqb_eq in T. cbn [negb orb].
      assert (F : In x (files v m)) by (apply in_files; now split). destruct (proj1 (l_file_names _ _ (o_linked E m O)) x F) as [h Hh]. rewrite Hh.
      destruct (proj2 (proj2 (o_sourced E m O) h) (ex_intro _ x (conj F Hh))) as [d Hd]. unfold dmem. now rewrite Hd. }
    clear - G. induction (echildren (m_refs m)) as [ | x l IH]; [reflexivity | ]. cbn [filter]. rewrite (G x (or_introl eq_refl)). f_equal. apply IH.
    intros y Hy. apply G. now right. }
  rewrite KV in S4.
  apply (order_kept E m m' S1 S2); [ | | exact O].
  - apply filter_twins. eapply Forall2_sub; [ | exact S4]. intros x y [[-> _] | (_ & h & d & z & _ & _ & _ & SB & _)]; [apply same_but_refl | exact SB].
  - unfold disks. unfold disks_rel in S5. destruct (m_disks m) as [s | ], (m_disks m') as [s' | ]; try contradiction; [ | constructor].
    apply filter_twins. eapply Forall2_sub; [ | exact (proj1 S5)].
    intros x y [[-> _] | (_ & c & n & _ & _ & SB & _)]; [apply same_but_refl | exact SB].
Qed.
End Refreshed.

Lemma refresh_sourced : forall E W fuel m m', measured W -> plain_units (e_ver E) m -> NoDup (map fst (m_sources m)) ->
  refresh_files E W fuel m = Ok m' -> forall f, In f (files (e_ver E) m') -> exists h d, get_attr f (FILE_HREF (e_ver E)) = Some h /\ In (h, d) (m_sources m').
Proof.
  intros E W fuel m m' G U ND H f Hf. destruct (refresh_state E W fuel m ND G U m' H) as [S1 S2 S3 S4 S5].
  apply in_files in Hf as [Hf Ft]. apply In_nth_error in Hf as [j Hj]. destruct (Forall2_at _ _ _ _ _ _ _ S4 Hj) as (x & Hx & R).
  destruct (file_rel_keeps E W _ x f (FILE_HREF (e_ver E)) R (proj1 (size_apart (e_ver E)))) as [Xt Xh].
  destruct (K_In E W m j x Hx) as [_ St]. destruct (stays_file E W m x St ltac:(congruence)) as (h & d & A & B).
  exists h, d. split; [congruence | ]. now rewrite S2.
Qed.
