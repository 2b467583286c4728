(** Proofs about bringing the references up to date. *)
From Coq Require Import List Ascii ZArith Bool Lia.
Import ListNotations.
From Verif Require Import PyBase PyBaseProofs PyDict PyDictProofs XmlModel NamesModel ItemModel UnitsModel UnitsSpec UnitsProofs DriveModel DriveSpec
  InfoModel InfoSpec InfoProfileProofs EnvPropProofs LinkProofs AddProofs RefreshModel RefreshSpec.
Local Open Scope nat_scope.

(** ** Elements *)
Lemma same_but_refl : forall ks e, same_but ks e e.
Proof. intros ks e. unfold same_but. auto 6. Qed.
Lemma same_but_trans : forall ks a b c, same_but ks a b -> same_but ks b c -> same_but ks a c.
Proof.
  intros ks a b c (A1 & A2 & A3 & A4 & A5) (B1 & B2 & B3 & B4 & B5). repeat split; try congruence.
  intros k Hk. rewrite B5 by assumption. now apply A5.
Qed.
Lemma same_but_set : forall k x e ks, In k ks -> same_but ks e (set_attr k x e).
Proof.
  intros k x [t a te tl cs] ks H. split; [reflexivity | ]. split; [reflexivity | ]. split; [reflexivity | ]. split; [reflexivity | ].
  intros k' Hk'. apply attr_other. intros ->. contradiction.
Qed.
Lemma same_but_set_all : forall a e ks, (forall k x, In (k, x) a -> In k ks) -> same_but ks e (set_all a e).
Proof.
  induction a as [ | [k x] a IH]; intros e ks H; [apply same_but_refl | ]. unfold set_all. cbn [fold_left fst snd].
  apply (same_but_trans ks e (set_attr k x e)); [apply same_but_set, (H k x); now left | ]. apply IH. intros k' x' H'. apply (H k' x'). now right.
Qed.

Lemma frame_same : forall l e, etag (set_children l e) = etag e /\ eattrib (set_children l e) = eattrib e /\ etext (set_children l e) = etext e /\ etail (set_children l e) = etail e.
Proof. intros l [t a x y c]. auto. Qed.

(** ** Lists *)
Lemma Forall2_at : forall A B (R : A -> B -> Prop) l l' j y, Forall2 R l l' -> nth_error l' j = Some y -> exists x, nth_error l j = Some x /\ R x y.
Proof.
  intros A B R l l' j y F. revert j. induction F as [ | x0 y0 l l' H F IH]; intros [ | j] Hj; try discriminate.
  - injection Hj as <-. exists x0. now split.
  - now apply IH.
Qed.
Lemma Forall2_at_left : forall A B (R : A -> B -> Prop) l l' j x, Forall2 R l l' -> nth_error l j = Some x -> exists y, nth_error l' j = Some y /\ R x y.
Proof.
  intros A B R l l' j x F. revert j. induction F as [ | x0 y0 l l' H F IH]; intros [ | j] Hj; try discriminate.
  - injection Hj as <-. exists y0. now split.
  - now apply IH.
Qed.
Lemma Forall2_update : forall A B (R R' : A -> B -> Prop) f l l' j, Forall2 R l l' ->
  (forall i x y, nth_error l i = Some x -> nth_error l' i = Some y -> R x y -> i <> j -> R' x y) ->
  (forall x y, nth_error l j = Some x -> nth_error l' j = Some y -> R x y -> R' x (f y)) -> Forall2 R' l (update_at j f l').
Proof.
  intros A B R R' f l l' j F. revert j. induction F as [ | x y l l' H F IH]; intros j H1 H2; [destruct j; constructor | ].
  destruct j as [ | j]; cbn [update_at].
  - constructor; [now apply H2 | ]. clear H2 IH. assert (G : forall i x y, nth_error l i = Some x -> nth_error l' i = Some y -> R x y -> R' x y).
    { intros i a b Ha Hb Hr. apply (H1 (S i) a b Ha Hb Hr). discriminate. }
    clear H1 H. induction F as [ | a b l l' H F IH]; constructor; [now apply (G 0 a b) | ]. apply IH. intros i x' y' Hx' Hy'. apply (G (S i) x' y' Hx' Hy').
  - constructor; [apply (H1 0 x y eq_refl eq_refl H); discriminate | ]. apply IH.
    + intros i a b Ha Hb Hr Hi. apply (H1 (S i) a b Ha Hb Hr). congruence.
    + intros a b Ha Hb Hr. now apply (H2 a b).
Qed.
Lemma Forall2_pointwise : forall A B (R R' : A -> B -> Prop) l l', Forall2 R l l' ->
  (forall i x y, nth_error l i = Some x -> nth_error l' i = Some y -> R x y -> R' x y) -> Forall2 R' l l'.
Proof.
  intros A B R R' l l' F. induction F as [ | x y l l' H F IH]; intros G; constructor; [now apply (G 0 x y) | ].
  apply IH. intros i a b Ha Hb. apply (G (S i) a b Ha Hb).
Qed.
Lemma filter_nth : forall A (f : A -> bool) l x, In x l -> f x = true -> exists j, nth_error (filter f l) j = Some x.
Proof. intros A f l x H1 H2. apply In_nth_error. apply filter_In. now split. Qed.

Lemma nodup_left : forall A (a b : list A), NoDup (a ++ b) -> NoDup a.
Proof.
  induction a as [ | x a IH]; intros b H; [constructor | ]. inversion H as [ | y l N D]; subst. constructor; [ | now apply (IH b)].
  intros C. apply N, in_or_app. now left.
Qed.

(** ** Capacities *)
Lemma units_more : forall k fuel fl z s r, units_loop fuel fl z s = Ok r -> units_loop (fuel + k) fl z s = Ok r.
Proof.
  intros k. induction fuel as [ | n IH]; intros fl z s r H; [discriminate | ]. cbn [units_loop Nat.add] in *.
  destruct (z mod 1024 =? 0)%Z; [ | exact H]. destruct fl; cbn [rbind] in *; [now apply IH | ].
  destruct (py_int_truediv_1024 z) as [w | e]; [ | discriminate]. cbn [rbind] in *. now apply IH.
Qed.
Lemma read_back : forall fuel z b u, (0 <= z < 2 ^ 63)%Z -> int_bytes_to_programmatic_units fuel z = Ok (b, u) ->
  programmatic_bytes_to_int b u = Ok z /\ exists n, b = zdec n.
Proof.
  intros fuel z b u Hz H.
  assert (N0 : z <> 0%Z).
  { intros ->. unfold int_bytes_to_programmatic_units in H. rewrite zero_loop in H. discriminate. }
  assert (M : int_bytes_to_programmatic_units (fuel + 100) z = Ok (b, u)).
  { unfold int_bytes_to_programmatic_units in *. destruct (units_loop fuel false z 0) as [[w s] | e] eqn:El; [ | discriminate].
    rewrite (units_more 100 _ _ _ _ _ El). exact H. }
  assert (F : enough_fuel z (fuel + 100)).
  { unfold enough_fuel. assert (Z.log2 (Z.abs z) < 63)%Z; [ | lia]. rewrite Z.abs_eq by lia. apply Z.log2_lt_pow2; lia. }
  split.
  - destruct (proj2 (roundtrip_iff (fuel + 100) z N0 F) (small_survive z Hz)) as (b' & u' & H1 & H2). rewrite M in H1. injection H1 as <- <-. exact H2.
  - clear M F. unfold int_bytes_to_programmatic_units in H. destruct (units_loop fuel false z 0) as [[w s] | e]; [ | discriminate]. cbn [rbind] in H.
    destruct (s =? 0)%Z; apply ok_inj in H; apply (f_equal fst) in H; cbn [fst] in H; exists w; now symmetry.
Qed.
Lemma int_ok : forall s z, int_or_err s = Ok z <-> py_int s = Some z.
Proof. intros s z. unfold int_or_err. destruct (py_int s); split; congruence. Qed.
Lemma names_apart : forall v, DISK_CAPACITY v <> DISK_CAP_UNITS v /\ DISK_FILE_REF v <> DISK_CAPACITY v /\ DISK_FILE_REF v <> DISK_CAP_UNITS v /\
  DISK_ID v <> DISK_CAPACITY v /\ DISK_ID v <> DISK_CAP_UNITS v.
Proof. intros v. repeat split; intros H; destruct v; vm_compute in H; discriminate H. Qed.
Lemma size_apart : forall v, FILE_HREF v <> FILE_SIZE v /\ FILE_ID v <> FILE_SIZE v.
Proof. intros v. split; intros H; destruct v; vm_compute in H; discriminate H. Qed.

Section Refresh.
Variables (E : env) (W : world) (fuel : nat).
Let v : version := e_ver E.

Lemma new_capacity_spec : forall c n a x, py_int c = Some n -> (0 <= n < 2 ^ 63)%Z ->
  (v = V0 -> get_attr x (DISK_CAP_UNITS v) = None) -> new_capacity E fuel c = Ok a ->
  same_but [DISK_CAPACITY v; DISK_CAP_UNITS v] x (set_all a x) /\ capacity v (set_all a x) n
  /\ (v = V0 -> get_attr (set_all a x) (DISK_CAP_UNITS v) = get_attr x (DISK_CAP_UNITS v)).
Proof.
  intros c n a x Hc Hn H0 H. unfold new_capacity in H. fold v in H. destruct (names_apart v) as (A1 & _).
  destruct v eqn:Ev.
  - apply ok_inj in H. subst a. split.
    + apply same_but_set_all. intros k y [K | []]. injection K as <- _. now left.
    + unfold set_all. cbn [fold_left fst snd]. split; [ | intros _; rewrite attr_other by congruence; reflexivity].
      exists c, n. rewrite attr_same. split; [reflexivity | ]. split; [exact Hc | ].
      rewrite attr_other by congruence. rewrite (H0 eq_refl). rewrite <- (read_byte n). unfold programmatic_bytes_to_int. reflexivity.
  - apply int_ok in Hc. rewrite Hc in H. cbn [rbind capacity_attrs] in H. step H cu Hcu. apply ok_inj in H. subst a. destruct cu as [b u]. cbn [fst snd].
    destruct (read_back fuel n b u Hn Hcu) as (R1 & w & ->). split.
    + apply same_but_set_all. intros k y [K | [K | []]]; injection K as <- _; [now left | right; now left].
    + unfold set_all. cbn [fold_left fst snd]. split; [ | discriminate]. exists (zdec w), w. rewrite attr_other by congruence. rewrite attr_same. split; [reflexivity | ].
      split; [apply py_int_zdec | ]. rewrite attr_same. exact R1.
  - apply int_ok in Hc. rewrite Hc in H. cbn [rbind capacity_attrs] in H. step H cu Hcu. apply ok_inj in H. subst a. destruct cu as [b u]. cbn [fst snd].
    destruct (read_back fuel n b u Hn Hcu) as (R1 & w & ->). split.
    + apply same_but_set_all. intros k y [K | [K | []]]; injection K as <- _; [now left | right; now left].
    + unfold set_all. cbn [fold_left fst snd]. split; [ | discriminate]. exists (zdec w), w. rewrite attr_other by congruence. rewrite attr_same. split; [reflexivity | ].
      split; [apply py_int_zdec | ]. rewrite attr_same. exact R1.
Qed.

(** ** The files that are there *)
Lemma live_spec : forall l r, live_sources W l = Ok r -> r = filter (fun nd => w_exists W (fst nd) (snd nd)) l.
Proof.
  induction l as [ | [n d] l IH]; intros r H; cbn [live_sources filter fst snd] in *; [now apply ok_inj in H | ].
  destruct (w_exists W n d); [ | now apply IH]. step H u Hu. step H r0 Hr. apply ok_inj in H. subst r. f_equal. now apply IH.
Qed.

Variable m : vmd.
Hypothesis distinct : NoDup (map fst (m_sources m)).
Let live := filter (fun nd => w_exists W (fst nd) (snd nd)) (m_sources m).
Lemma live_In : forall h d, In (h, d) live <-> is_there W m h d.
Proof. intros h d. unfold live, is_there. rewrite filter_In. reflexivity. Qed.
Lemma live_distinct : NoDup (map fst live).
Proof.
  unfold live. clear live. induction (m_sources m) as [ | [n d] l IH]; cbn [filter map]; [constructor | ]. inversion distinct as [ | a b N D]; subst.
  destruct (w_exists W (fst (n, d)) (snd (n, d))); [ | now apply IH]. cbn [map fst]. constructor; [ | now apply IH].
  intros C. apply N. apply in_map_iff in C as (y & Hy & Hin). apply filter_In in Hin as [Hin _]. apply in_map_iff. now exists y.
Qed.
Let K := filter (stays E live) (echildren (m_refs m)).

(** A File of the kept ones. *)
Lemma stays_file : forall x, stays E live x = true -> etag x = FILE v -> exists h d, get_attr x (FILE_HREF v) = Some h /\ In (h, d) live.
Proof.
  intros x H Ht. unfold stays in H. fold v in H. rewrite Ht, str_eqb_refl in H. cbn [negb orb] in H.
  destruct (get_attr x (FILE_HREF v)) as [h | ] eqn:Eh; [ | discriminate]. unfold dmem in H. destruct (dget str_eqb h live) as [d | ] eqn:Ed; [ | discriminate].
  exists h, d. split; [reflexivity | ]. now apply (dget_In str_eqb str_eqb_eq).
Qed.
Lemma file_stays : forall x h d, get_attr x (FILE_HREF v) = Some h -> In (h, d) live -> stays E live x = true.
Proof.
  intros x h d Hh Hd. unfold stays. fold v. rewrite Hh. apply orb_true_iff. right. unfold dmem.
  rewrite (dget_Some_In str_eqb str_eqb_eq live h d live_distinct Hd). reflexivity.
Qed.

(** After the files [P] have been looked at. *)
Definition file_rel (P : list (str * str)) (x y : elem) : Prop :=
  (y = x /\ (etag x = FILE v -> forall h, get_attr x (FILE_HREF v) = Some h -> ~ In h (map fst P)))
  \/ (etag x = FILE v /\ exists h d z, get_attr x (FILE_HREF v) = Some h /\ In (h, d) P /\ w_size W h d = Ok z /\
        same_but [FILE_SIZE v] x y /\ get_attr y (FILE_SIZE v) = Some (zdec z)).
Definition disk_rel (P : list (str * str)) (x y : elem) : Prop :=
  (y = x /\ (etag x <> DISK v \/ (forall f id h d, In f (files v m) -> get_attr f (FILE_ID v) = Some id ->
              get_attr x (DISK_FILE_REF v) = Some id -> get_attr f (FILE_HREF v) = Some h -> In (h, d) P -> w_on_disk W h d = false)))
  \/ (etag x = DISK v /\ exists c n, disk_image v W m x c /\ py_int c = Some n /\
       same_but [DISK_CAPACITY v; DISK_CAP_UNITS v] x y /\ capacity v y n /\ (v = V0 -> get_attr y (DISK_CAP_UNITS v) = get_attr x (DISK_CAP_UNITS v))).
Definition disks_rel (P : list (str * str)) (a b : option elem) : Prop :=
  match a, b with
  | None, None => True
  | Some s, Some s' => Forall2 (disk_rel P) (echildren s) (echildren s') /\
       etag s' = etag s /\ eattrib s' = eattrib s /\ etext s' = etext s /\ etail s' = etail s
  | _, _ => False
  end.
Record state (P : list (str * str)) (m' : vmd) : Prop := {
  s_hw : m_hw m' = m_hw m;
  s_src : m_sources m' = live;
  s_refs : etag (m_refs m') = etag (m_refs m) /\ eattrib (m_refs m') = eattrib (m_refs m) /\ etext (m_refs m') = etext (m_refs m) /\ etail (m_refs m') = etail (m_refs m);
  s_files : Forall2 (file_rel P) K (echildren (m_refs m'));
  s_disks : disks_rel P (m_disks m) (m_disks m') }.

Lemma file_rel_keeps : forall P x y k, file_rel P x y -> k <> FILE_SIZE v -> etag y = etag x /\ get_attr y k = get_attr x k.
Proof.
  intros P x y k [[-> _] | (_ & h & d & z & _ & _ & _ & (A1 & _ & _ & _ & A5) & _)] Hk; [now split | ].
  split; [exact A1 | ]. apply A5. intros [C | []]. congruence.
Qed.
Lemma disk_rel_keeps : forall P x y k, disk_rel P x y -> k <> DISK_CAPACITY v -> k <> DISK_CAP_UNITS v -> etag y = etag x /\ get_attr y k = get_attr x k.
Proof.
  intros P x y k [[-> _] | (_ & c & n & _ & _ & (A1 & _ & _ & _ & A5) & _)] H1 H2; [now split | ].
  split; [exact A1 | ]. apply A5. intros [C | [C | []]]; congruence.
Qed.

Hypothesis good : measured W.
Hypothesis units : plain_units v m.

Lemma in_files : forall x, In x (files v m) <-> In x (echildren (m_refs m)) /\ etag x = FILE v.
Proof. intros x. unfold files. rewrite filter_In, str_eqb_eq. reflexivity. Qed.
Lemma K_In : forall j x, nth_error K j = Some x -> In x (echildren (m_refs m)) /\ stays E live x = true.
Proof. intros j x H. apply nth_error_In in H. now apply filter_In in H. Qed.

Lemma fst_in : forall (h : str) (P : list (str * str)), In h (map fst P) <-> exists d, In (h, d) P.
Proof.
  intros h P. rewrite in_map_iff. split; [intros ([a b] & <- & H); now exists b | intros [d H]; now exists (h, d)].
Qed.

Lemma step_state : forall P n d m1 m2, state P m1 -> NoDup (map fst (P ++ [(n, d)])) -> incl (P ++ [(n, d)]) live ->
  refresh_one E W fuel m1 (n, d) = Ok m2 -> state (P ++ [(n, d)]) m2.
Proof.
  intros P n d m1 m2 [S1 S2 S3 S4 S5] ND I H.
  assert (NP : ~ In n (map fst P)).
  { intros C. rewrite map_app in ND. apply NoDup_remove_2 in ND. rewrite app_nil_r in ND. now apply ND. }
  assert (D1 : forall d', In (n, d') (P ++ [(n, d)]) -> d' = d).
  { intros d' Hd'. apply in_app_or in Hd' as [Hd' | [Hd' | []]]; [ | now injection Hd']. exfalso. apply NP, fst_in. now exists d'. }
  assert (LV : is_there W m n d). { apply live_In, I, in_or_app. right. now left. }
  unfold refresh_one in H. fold v in H. step H o Ho. destruct o as [j | ]; [ | discriminate].
  step H z Hz. set (R1 := update_at j (set_attr (FILE_SIZE v) (zdec z)) (echildren (m_refs m1))) in *.
  set (m3 := with_refs (set_children R1 (m_refs m1)) m1) in *.
  apply find_place_Some in Ho as [(y & Hy & Yt & Yh) Uq].
  destruct (Forall2_at _ _ _ _ _ _ _ S4 Hy) as (x & Hx & Rx).
  destruct (size_apart v) as [Z1 Z2].
  destruct (file_rel_keeps P x y (FILE_HREF v) Rx Z1) as [Xt Xh]. rewrite Yt in Xt. rewrite Yh in Xh.
  destruct (file_rel_keeps P x y (FILE_ID v) Rx Z2) as [_ Xid].
  assert (F3 : Forall2 (file_rel (P ++ [(n, d)])) K R1).
  { apply (Forall2_update _ _ (file_rel P)); [exact S4 | | ].
    - intros i a b Ha Hb [[-> Hn] | (T & h & e & w & Q1 & Q2 & Q3)] Hi.
      + left. split; [reflexivity | ]. intros T h Hh C. apply fst_in in C as [e He]. apply in_app_or in He as [He | [He | []]].
        * apply (Hn T h Hh), fst_in. now exists e.
        * injection He as <- _. apply Hi. exact (Uq i a Hb T Hh).
      + right. split; [exact T | ]. exists h, e, w. split; [exact Q1 | ]. split; [apply in_or_app; now left | exact Q3].
    - intros a b Ha Hb Rab. assert (a = x) as -> by congruence. assert (b = y) as -> by congruence.
      right. split; [congruence | ]. exists n, d, z. split; [congruence | ]. split; [apply in_or_app; right; now left | ]. split; [exact Hz | ].
      split; [ | apply attr_same]. apply (same_but_trans _ x y); [ | apply same_but_set; now left].
      destruct Rab as [[-> _] | (_ & h & e & w & _ & _ & _ & SB & _)]; [apply same_but_refl | exact SB]. }
  (* the file that was updated *)
  assert (Hid : forall f, child_at (m_refs m3) j = Ok f -> get_attr f (FILE_ID v) = get_attr x (FILE_ID v)).
  { intros f Hf. unfold child_at in Hf. cbn [m3 m_refs with_refs] in Hf. rewrite children_set in Hf.
    destruct (nth_error R1 j) as [f' | ] eqn:Ef; [ | discriminate]. apply ok_inj in Hf. subst f'.
    destruct (Forall2_at _ _ _ _ _ _ _ F3 Ef) as (x' & Hx' & Rx'). assert (x' = x) as -> by congruence.
    exact (proj2 (file_rel_keeps _ _ _ (FILE_ID v) Rx' Z2)). }
  step H f Hf. specialize (Hid f Hf). step H k Hk. rewrite Hid in Hk.
  (* any File with that name is the one *)
  assert (One : forall g, In g (files v m) -> get_attr g (FILE_HREF v) = Some n -> g = x).
  { intros g Hg Hgn. apply in_files in Hg as [Hg Gt].
    destruct (filter_nth _ (stays E live) _ g Hg (file_stays g n d Hgn (proj2 (live_In n d) LV))) as [i Hi].
    destruct (Forall2_at_left _ _ _ _ _ _ _ S4 Hi) as (b & Hb & Rb).
    destruct (file_rel_keeps P g b (FILE_HREF v) Rb Z1) as [Bt Bh].
    assert (i = j) as -> by (apply (Uq i b Hb); congruence). change (nth_error K j = Some g) in Hi. congruence. }
  assert (Hd3 : m_disks m3 = m_disks m1) by reflexivity.
  assert (B3 : m_hw m3 = m_hw m /\ m_sources m3 = live /\
     (etag (m_refs m3) = etag (m_refs m) /\ eattrib (m_refs m3) = eattrib (m_refs m) /\ etext (m_refs m3) = etext (m_refs m) /\ etail (m_refs m3) = etail (m_refs m))
     /\ echildren (m_refs m3) = R1).
  { split; [exact S1 | ]. split; [exact S2 | ]. split; [ | apply children_set]. cbn [m3 m_refs with_refs]. destruct (m_refs m1). exact S3. }
  assert (Same_state : disks_rel (P ++ [(n, d)]) (m_disks m) (m_disks m1) -> state (P ++ [(n, d)]) m3).
  { intros Sd. destruct B3 as (B1 & B2 & B4 & B5). constructor; [exact B1 | exact B2 | exact B4 | now rewrite B5 | now rewrite Hd3]. }
  (* a relation of a Disk is kept if the new file is not that of the disk *)
  assert (Ext : forall a b, disk_rel P a b -> (etag a = DISK v -> get_attr a (DISK_FILE_REF v) = get_attr x (FILE_ID v) -> get_attr x (FILE_ID v) <> None -> w_on_disk W n d = false) ->
            disk_rel (P ++ [(n, d)]) a b).
  { intros a b [[-> Hn] | R] Hw; [ | right; exact R]. left. split; [reflexivity | ].
    destruct (list_eq_dec ascii_dec (etag a) (DISK v)) as [Ta | Ta]; [ | now left]. right.
    intros g id h e Hg Gid Aid Gh He. apply in_app_or in He as [He | [He | []]].
    - destruct Hn as [C | Hn]; [contradiction | ]. exact (Hn g id h e Hg Gid Aid Gh He).
    - injection He as -> ->. pose proof (One g Hg Gh) as ->. apply Hw; congruence. }
  destruct (names_apart v) as (N1 & N2 & N3 & _).
  destruct k as [k | ].
  2: { apply ok_inj in H. subst m2. apply Same_state. unfold disks_rel in *.
    destruct (m_disks m) as [s | ], (m_disks m1) as [s1 | ] eqn:Em1; try exact S5; try contradiction.
    destruct S5 as [S5 S6]. split; [ | exact S6]. apply (Forall2_pointwise _ _ (disk_rel P)); [exact S5 | ]. intros i a b Ha Hb Rab. apply Ext; [exact Rab | ].
    intros Ta Aid Nn. exfalso. unfold find_disk_from_file_id in Hk. rewrite Hd3 in Hk.
    destruct (get_attr x (FILE_ID v)) as [id | ]; [ | congruence].
    destruct (disk_rel_keeps P a b (DISK_FILE_REF v) Rab N2 N3) as [Bt Bf].
    apply (find_place_None _ _ _ _ Hk b (nth_error_In _ _ Hb)); congruence. }
  unfold find_disk_from_file_id in Hk. rewrite Hd3 in Hk. destruct (get_attr x (FILE_ID v)) as [id | ] eqn:Exid; [ | discriminate].
  destruct (m_disks m1) as [s1 | ] eqn:Em1; [ | discriminate]. destruct (m_disks m) as [s | ] eqn:Em; [ | contradiction].
  destruct S5 as [S5 S6]. apply find_place_Some in Hk as [(b & Hb & Bt & Bf) Uk].
  unfold refresh_capacity in H. destruct (w_on_disk W n d) eqn:Ew.
  2: { apply ok_inj in H. subst m2. apply Same_state. split; [ | exact S6].
    apply (Forall2_pointwise _ _ (disk_rel P)); [exact S5 | ]. intros i a c Ha Hc Rac. now apply Ext. }
  step H c Hc. unfold the_disks in H. rewrite Hd3 in H. cbn [rbind] in H. unfold child_at in H. rewrite Hb in H. cbn [rbind] in H.
  step H r Hr. apply capacity_spec in Hr. fold v in Hr.
  destruct (Forall2_at _ _ _ _ _ _ _ S5 Hb) as (a & Ha & Rab). destruct (disk_rel_keeps P a b (DISK_FILE_REF v) Rab N2 N3) as [At Af].
  assert (DI : disk_image v W m a c).
  { exists x, id, n, d. split. { apply in_files. split; [exact (proj1 (K_In j x Hx)) | congruence]. }
    split; [exact Exid | ]. split; [congruence | ]. split; [congruence | ]. split; [exact LV | ]. now split. }
  assert (SB : same_but [DISK_CAPACITY v; DISK_CAP_UNITS v] a b).
  { destruct Rab as [[-> _] | (_ & c0 & n0 & _ & _ & SB & _)]; [apply same_but_refl | exact SB]. }
  assert (Others : forall i a' b', nth_error (echildren s1) i = Some b' -> disk_rel P a' b' -> i <> k -> disk_rel (P ++ [(n, d)]) a' b').
  { intros i a' b' Hb' R' Hi. apply Ext; [exact R' | ]. intros Ta Aid _. exfalso. apply Hi.
    destruct (disk_rel_keeps P a' b' (DISK_FILE_REF v) R' N2 N3) as [Bt' Bf']. apply (Uk i b' Hb'); congruence. }
  destruct (good n d c Hc) as (q & Hq & Bq).
  destruct (str_eqb (zdec r) c) eqn:Ec.
  - apply str_eqb_eq in Ec. apply ok_inj in H. subst m2. apply Same_state. split; [ | exact S6].
    apply (Forall2_pointwise _ _ (disk_rel P)); [exact S5 | ]. intros i a' b' Ha' Hb' R'.
    destruct (Nat.eq_dec i k) as [-> | Ni]; [ | now apply (Others i)].
    assert (a' = a) as -> by congruence. assert (b' = b) as -> by congruence. right. split; [congruence | ]. exists c, r. split; [exact DI | ].
    split; [rewrite <- Ec; apply py_int_zdec | ]. split; [exact SB | ]. split; [exact Hr | ].
    intros V. destruct Rab as [[-> _] | (_ & c0 & n0 & _ & _ & _ & _ & U1)]; [reflexivity | exact (U1 V)].
  - step H at' Hat. apply ok_inj in H. subst m2. destruct B3 as (B1 & B2 & B4 & B5).
    constructor; [exact B1 | exact B2 | exact B4 | cbn [m_refs with_disks]; now rewrite B5 | ]. cbn [m_disks with_disks]. rewrite Em. split.
    + rewrite children_set. apply (Forall2_update _ _ (disk_rel P)); [exact S5 | | ].
      * intros i a' b' _ Hb' R' Hi. now apply (Others i).
      * intros a' b' Ha' Hb' _. assert (a' = a) as -> by congruence. assert (b' = b) as -> by congruence. right. split; [congruence | ].
        exists c, q. split; [exact DI | ]. split; [exact Hq | ].
        assert (U0 : v = V0 -> get_attr b (DISK_CAP_UNITS v) = None).
        { intros V. assert (Ua : get_attr a (DISK_CAP_UNITS v) = None).
          { apply (units V). unfold disks. rewrite Em. apply filter_In. split; [now apply nth_error_In in Ha | ]. apply str_eqb_eq. congruence. }
          destruct Rab as [[-> _] | (_ & c0 & n0 & _ & _ & _ & _ & U0)]; [exact Ua | rewrite (U0 V); exact Ua]. }
        destruct (new_capacity_spec c q at' b Hq Bq U0 Hat) as (C1 & C2 & C3). split; [now apply (same_but_trans _ a b) | ]. split; [exact C2 | ].
        intros V. rewrite (C3 V). destruct Rab as [[-> _] | (_ & c0 & n0 & _ & _ & _ & _ & U1)]; [reflexivity | exact (U1 V)].
    + destruct s1. exact S6.
Qed.
Lemma fold_state : forall rest P m1 m2, state P m1 -> P ++ rest = live -> fold_result (refresh_one E W fuel) rest m1 = Ok m2 -> state live m2.
Proof.
  induction rest as [ | [n d] rest IH]; intros P m1 m2 S Hl H; cbn [fold_result] in H.
  - apply ok_inj in H. subst m2. rewrite app_nil_r in Hl. now subst P.
  - step H m3 Hm. replace (P ++ (n, d) :: rest) with ((P ++ [(n, d)]) ++ rest) in Hl by now rewrite <- app_assoc.
    apply (IH (P ++ [(n, d)]) m3 m2); [ | exact Hl | exact H]. apply (step_state P n d m1 m3 S); [ | | exact Hm].
    + pose proof live_distinct as N. rewrite <- Hl, map_app in N. now apply nodup_left in N.
    + rewrite <- Hl. apply incl_appl, incl_refl.
Qed.
Definition start : vmd := with_sources live (with_refs (set_children K (m_refs m)) m).
Lemma files_before : forall l, Forall2 (file_rel []) l l.
Proof. induction l as [ | x l IH]; constructor; [ | exact IH]. left. split; [reflexivity | ]. intros _ h _ []. Qed.
Lemma start_state : state [] start.
Proof.
  constructor; [reflexivity | reflexivity | apply frame_same | | ].
  - cbn [start m_refs with_sources with_refs]. rewrite children_set. apply files_before.
  - cbn [start m_disks with_sources with_refs]. unfold disks_rel. destruct (m_disks m) as [s | ]; [ | exact Logic.I]. split; [ | auto].
    induction (echildren s) as [ | x l IH]; constructor; [ | exact IH]. left. split; [reflexivity | ]. right. intros f id h d _ _ _ _ [].
Qed.
Lemma refresh_state : forall m', refresh_files E W fuel m = Ok m' -> state live m'.
Proof.
  intros m' H. unfold refresh_files in H. step H l Hl. apply live_spec in Hl. fold live in Hl. subst l.
  apply (fold_state live [] start m' start_state eq_refl H).
Qed.
Lemma state_files : forall m', state live m' -> files_refreshed v W m (echildren (m_refs m)) (echildren (m_refs m')).
Proof.
  intros m' [_ _ _ S _]. unfold K in S. revert S. generalize (echildren (m_refs m')) as ys.
  assert (G : forall xs, incl xs (echildren (m_refs m)) -> forall ys, Forall2 (file_rel live) (filter (stays E live) xs) ys -> files_refreshed v W m xs ys).
  { induction xs as [ | x xs IH]; intros I ys F; cbn [filter] in F; [inversion F; constructor | ].
    assert (I' : incl xs (echildren (m_refs m))) by (intros a Ha; apply I; now right).
    destruct (stays E live x) eqn:Es.
    - inversion F as [ | a b l l' R F']; subst. destruct R as [[-> Hn] | (T & h & d & z & Q1 & Q2 & Q3 & Q4 & Q5)].
      + destruct (list_eq_dec ascii_dec (etag x) (FILE v)) as [T | T].
        * exfalso. destruct (stays_file x Es T) as (h & d & Hh & Hd). apply (Hn T h Hh), fst_in. now exists d.
        * constructor; [exact T | now apply IH].
      + apply (File_there v W m x b xs l' h d z T Q1); [now apply live_In | exact Q3 | exact Q4 | exact Q5 | now apply IH].
    - destruct (list_eq_dec ascii_dec (etag x) (FILE v)) as [T | T].
      + apply File_gone; [exact T | | now apply IH]. intros h d Hh C. apply live_In in C. rewrite (file_stays x h d Hh C) in Es. discriminate.
      + exfalso. unfold stays in Es. fold v in Es. apply str_eqb_neq in T. rewrite T in Es. discriminate. }
  intros ys F. apply G; [apply incl_refl | exact F].
Qed.
Lemma rel_disk : forall x y, disk_rel live x y -> disk_refreshed v W m x y.
Proof.
  intros x y [[-> H] | (T & c & n & D & C & SB & Cap & _)].
  - apply Same. destruct H as [H | H]; [now left | right]. intros f id h d H1 H2 H3 H4 H5. apply (H f id h d H1 H2 H3 H4). now apply live_In.
  - exact (Measured v W m x y c n T D C SB Cap).
Qed.
End Refresh.
