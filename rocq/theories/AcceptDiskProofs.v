(** Proofs about when disks can be added. *)
From Coq Require Import Lia Permutation.
From Verif Require Import PyBase PyBaseProofs PyDict PyDictProofs ValidationModel ValidationSpec ValidationProofs XmlModel NamesModel
  ItemModel ItemSpec PsetProofs ItemProofs ItemProfileProofs ItemSetProofs ItemReachProofs
  ItemEffectProofs HardwareModel HardwareSpec HardwareProofs HardwareIdProofs CountSpec CountItemProofs CountProofs FindSpec FindProofs
  RawModel NetworkModel DiskOptModel DriveModel DriveSpec SlotProofs DeviceProofs LinkProofs SearchProofs SubtypeProofs WorkerProofs AddProofs AddressProofs AcceptSpec AcceptProofs.
Local Open Scope nat_scope.

(** ** Setting a property succeeds *)

Lemma not_owned : forall ver ps n, good_props ver ps -> (forall q w, ~ own ps n q w) -> prget n ps = None \/ prget n ps = Some [].
Proof.
  intros ver ps n G N. destruct (prget n ps) as [d|] eqn:Ed; [|now left]. right. f_equal. destruct d as [|[w s] d]; [reflexivity|].
  exfalso. pose proof (good_dict ver ps n _ G Ed) as (_ & H & _). destruct (H w s (or_introl eq_refl)) as (_ & Hs & _).
  destruct s as [|q s]; [contradiction|]. apply (N q w). apply own_iff; [apply G|]. exists ((w, q :: s) :: d). split; [exact Ed|].
  exists (q :: s). split; now left.
Qed.

Lemma few_ok : forall E i n x P v, good_props (e_ver E) (i_props i) ->
  add_wildcards E (i_props i) n (to_value E n x) (profs_of (i_props i) n P) = Ok v ->
  (n <> INSTANCE_ID (e_ver E) /\ n <> RESOURCE_TYPE) \/ length (stored_values (i_props i) n v (profs_of (i_props i) n P)) <= 1 ->
  exists i', set_property E i n x P true = Ok i'.
Proof.
  intros E i n x P v G Hv H. rewrite set_property_eq by exact G. rewrite Hv. cbn [rbind refused negb andb]. unfold too_many.
  destruct H as [[H1 H2]|H].
  - apply str_eqb_neq in H1, H2. rewrite H1, H2. cbn [orb andb]. eauto.
  - assert (X : (1 <? length (stored_values (i_props i) n v (profs_of (i_props i) n P))) = false) by (apply Nat.ltb_ge; exact H).
    rewrite X, andb_false_r. eauto.
Qed.

Lemma new_ok : forall E i n x P, reachable (e_ver E) i -> ~ text_property (e_ver E) n -> (forall q w, ~ own (i_props i) n q w) ->
  exists i', set_property E i n x P true = Ok i'.
Proof.
  intros E i n x P R T N. pose proof (reachable_good _ _ R) as G.
  apply (few_ok E i n x P (to_value E n x) G); [apply add_wildcards_plain; now apply not_text|]. right. unfold stored_values.
  destruct (not_owned _ _ n G N) as [-> | ->].
  - destruct (truthy _); cbn; lia.
  - unfold fin, pre, added. rewrite map_length. cbn [upd flat_map app]. destruct (truthy _ && _); cbn; lia.
Qed.

Lemma plain_ok : forall E i n x P, reachable (e_ver E) i -> ~ text_property (e_ver E) n -> n <> INSTANCE_ID (e_ver E) -> n <> RESOURCE_TYPE ->
  exists i', set_property E i n x P true = Ok i'.
Proof.
  intros E i n x P R T H1 H2. apply (few_ok E i n x P (to_value E n x) (reachable_good _ _ R)); [apply add_wildcards_plain; now apply not_text|]. left. now split.
Qed.

Lemma type_ok : forall E i t P, reachable (e_ver E) i -> only_value (i_props i) RESOURCE_TYPE (VStr t) ->
  exists i', set_property E i RESOURCE_TYPE (IStr t) P true = Ok i'.
Proof.
  intros E i t P R [[p Hp] Ho]. pose proof (reachable_good _ _ R) as G.
  apply (few_ok E i RESOURCE_TYPE (IStr t) P (VStr t) G); [rewrite add_wildcards_plain by (apply not_text; apply RT_plain); reflexivity|]. right. unfold stored_values.
  destruct (prget RESOURCE_TYPE (i_props i)) as [d|] eqn:Ed; [|destruct (truthy _); cbn; lia].
  pose proof (good_dict _ _ _ _ G Ed) as GD. assert (L1 : length d <= 1).
  { apply G with (n := RESOURCE_TYPE); [|now right]. apply prget_In; [apply G|exact Ed]. }
  destruct d as [|[w s] [|]]; [ |  |cbn in L1; lia].
  - unfold fin, pre, added. rewrite map_length. cbn [upd flat_map app]. destruct (truthy _ && _); cbn; lia.
  - destruct (proj1 (proj2 GD) w s (or_introl eq_refl)) as (_ & Hs & _).
    assert (W : w = VStr t).
    { destruct s as [|q s]; [contradiction|]. apply (Ho q). apply own_iff; [apply G|]. exists [(w, q :: s)]. split; [exact Ed|]. exists (q :: s). split; now left. }
    subst w. set (P' := profs_of (i_props i) RESOURCE_TYPE P). unfold fin, pre. rewrite map_length.
    assert (U : exists s', upd (VStr t) P' [(VStr t, s)] = [(VStr t, s')]).
    { unfold upd. cbn [flat_map upd_entry]. rewrite app_nil_r. destruct (pset_eqb (new_set (VStr t) P' (VStr t) s) s); [eauto|].
      assert (N : new_set (VStr t) P' (VStr t) s <> []).
      { unfold new_set. rewrite (proj2 (value_eqb_eq (VStr t) (VStr t)) eq_refl). cbn [negb]. destruct (pmem None s); [exact Hs|].
        destruct s as [|q s]; [contradiction|]. intros F. assert (X : In q (punion (q :: s) P')) by (apply punion_In; left; now left). rewrite F in X. destruct X. }
      destruct (new_set (VStr t) P' (VStr t) s) as [|a b]; [contradiction|]. cbn [is_nil]. eauto. }
    destruct U as [s' U]. unfold added. rewrite U. unfold dmem. cbn [dget]. rewrite (proj2 (value_eqb_eq (VStr t) (VStr t)) eq_refl). rewrite andb_false_r. cbn. lia.
Qed.

Definition no_marks (i : item) : Prop :=
  forall n, In n [VIRTUAL_QUANTITY; RESOURCE_SUB_TYPE; CONNECTION] -> forall q w, ~ own (i_props i) n q w.

Lemma name_ok : forall E i x P, reachable (e_ver E) i -> no_marks i -> exists i', set_property E i (ELEMENT_NAME (e_ver E)) x P true = Ok i'.
Proof.
  intros E i x P R N. pose proof (reachable_good _ _ R) as G.
  apply (few_ok E i _ x P (to_value E (ELEMENT_NAME (e_ver E)) x) G).
  2: { left. unfold RESOURCE_TYPE. destruct (e_ver E); split; discriminate. }
  unfold add_wildcards.
  assert (D : is_desc (ELEMENT_NAME (e_ver E)) = false) by (destruct (e_ver E); vm_compute; reflexivity). rewrite D. cbn [rbind].
  assert (T : is_text E (ELEMENT_NAME (e_ver E)) = true) by (unfold is_text; rewrite str_eqb_refl; reflexivity). rewrite T.
  assert (Sv : forall n f mk Q u, In n [VIRTUAL_QUANTITY; RESOURCE_SUB_TYPE; CONNECTION] -> sub_value E (i_props i) n f mk Q u = Ok u).
  { intros n f mk Q u Hn. unfold sub_value. rewrite get_value_plain.
    - unfold get_raw. destruct (not_owned _ _ n G (N n Hn)) as [-> | ->]; reflexivity.
    - apply not_text. intros F. destruct Hn as [<-|[<-|[<-|[]]]]; unfold text_property in F; destruct (e_ver E); destruct F as [F|F]; discriminate F. }
  rewrite (Sv VIRTUAL_QUANTITY) by (cbn; tauto). cbn [rbind]. rewrite (Sv RESOURCE_SUB_TYPE) by (cbn; tauto). cbn [rbind].
  apply Sv. cbn; tauto.
Qed.

(** ** A new device *)

Lemma new_item_ok : forall E h rt t, res_map rt = Ok t -> exists k h', new_item E h rt [] = Ok (k, h').
Proof.
  intros E h rt t Ht. unfold new_item. destruct (find_unused_ok h 1) as [k ->]. cbn [rbind].
  assert (R0 : reachable (e_ver E) (new_ovfitem E)) by now constructor.
  assert (N0 : forall n q w, ~ own (i_props (new_ovfitem E)) n q w) by (intros n q w (d & s & [] & _)).
  destruct (new_ok E (new_ovfitem E) (INSTANCE_ID (e_ver E)) (IStr k) [] R0 (IID_not_text E) (N0 _)) as [i1 E1]. rewrite E1. cbn [rbind].
  rewrite Ht. cbn [rbind].
  assert (R1 : reachable (e_ver E) i1) by (eapply R_set; [reflexivity|exact R0|exact E1]).
  assert (N1 : forall n q w, n <> INSTANCE_ID (e_ver E) -> ~ own (i_props i1) n q w).
  { intros n q w Hn F. apply (set_other_rec E _ _ _ _ _ i1 _ q w R0 Hn E1) in F. exact (N0 n q w F). }
  destruct (new_ok E i1 RESOURCE_TYPE (IStr t) [] R1 (RT_plain _)) as [i2 E2]; [intros q w; apply N1; unfold RESOURCE_TYPE; destruct (e_ver E); discriminate|].
  rewrite E2. cbn [rbind].
  assert (R2 : reachable (e_ver E) i2) by (eapply R_set; [reflexivity|exact R1|exact E2]).
  destruct (name_ok E i2 (IStr rt) [] R2) as [i3 ->]; [|cbn [rbind]; eauto].
  intros n Hn q w F. assert (n <> RESOURCE_TYPE /\ n <> INSTANCE_ID (e_ver E)) as [H1 H2].
  { destruct Hn as [<-|[<-|[<-|[]]]]; (split; [discriminate|destruct (e_ver E); discriminate]). }
  apply (set_other_rec E i1 _ _ _ _ i2 _ q w R1 H1 E2) in F. exact (N1 n q w H2 F).
Qed.

(** The properties of a disk drive can be set on a device that is like a new one. *)
Definition fresh (E : env) (t : str) (i : item) : Prop :=
  reachable (e_ver E) i /\ no_marks i /\ only_value (i_props i) RESOURCE_TYPE (VStr t).
Definition settable (E : env) (t : str) (nx : str * inval) : Prop :=
  In (fst nx) [ADDRESS_ON_PARENT; PARENT; HOST_RESOURCE; ELEMENT_NAME (e_ver E)] \/ nx = (RESOURCE_TYPE, IStr t).

Lemma fresh_set : forall E t i nx, t <> [] -> fresh E t i -> settable E t nx ->
  exists i', set_property E i (fst nx) (snd nx) [] true = Ok i' /\ fresh E t i'.
Proof.
  intros E t i [n x] Tn (R & N & O) S. cbn [fst snd].
  assert (G : exists i', set_property E i n x [] true = Ok i').
  { destruct S as [S|S].
    - cbn [fst In] in S. assert (Q : n = ELEMENT_NAME (e_ver E) \/ In n [ADDRESS_ON_PARENT; PARENT; HOST_RESOURCE]) by (cbn; intuition).
      destruct Q as [-> | Q]; [now apply name_ok|]. destruct Q as [<-|[<-|[<-|[]]]]; apply plain_ok; try exact R;
        try (unfold text_property, RESOURCE_TYPE; destruct (e_ver E); try intros [F|F]; discriminate).
    - injection S as -> ->. now apply type_ok. }
  destruct G as [i' G]. exists i'. split; [exact G|]. split; [exact (R_set _ E i n x [] true i' eq_refl R G)|]. split.
  - intros n' Hn q w F. apply (N n' Hn q w). apply (set_other_rec E i n x [] true i' n' q w R); [|exact G|exact F]. intros ->.
    destruct S as [S|S]; [cbn [fst] in S|injection S as -> _; destruct Hn as [F'|[F'|[F'|[]]]]; discriminate F'].
    destruct Hn as [<-|[<-|[<-|[]]]]; destruct S as [F'|[F'|[F'|[F'|[]]]]]; try discriminate F'; destruct (e_ver E); discriminate F'.
  - destruct S as [S|S].
    + assert (Q : RESOURCE_TYPE <> n).
      { intros <-. cbn [fst] in S. destruct S as [F'|[F'|[F'|[F'|[]]]]]; try discriminate F'; destruct (e_ver E); discriminate F'. }
      destruct O as [[p Hp] Ho]. split; [exists p; now apply (set_other_rec E i n x [] true i' _ _ _ R Q G)|].
      intros q w Hw. apply (Ho q). now apply (set_other_rec E i n x [] true i' _ _ _ R Q G).
    + injection S as -> ->. apply (set_all_only E i RESOURCE_TYPE (IStr t) true i' R (RT_plain _)); [|exact G]. destruct t; [contradiction|reflexivity].
Qed.

Lemma fresh_fold : forall E t l i, t <> [] -> fresh E t i -> (forall nx, In nx l -> settable E t nx) ->
  exists i', fold_result (fun i nx => set_property E i (fst nx) (snd nx) [] true) l i = Ok i' /\ fresh E t i'.
Proof.
  intros E t l. induction l as [|nx l IH]; intros i Tn F S; [exists i; now split|]. cbn [fold_result].
  destruct (fresh_set E t i nx Tn F (S nx (or_introl eq_refl))) as (i1 & -> & F1). cbn [rbind]. apply IH; [exact Tn|exact F1|]. intros y Hy. apply S. now right.
Qed.

Lemma fresh_props : forall E t m k i l, t <> [] -> hitem k (m_hw m) = Ok i -> fresh E t i -> (forall nx, In nx l -> settable E t nx) ->
  exists m' i', set_props E m k l = Ok m' /\ hitem k (m_hw m') = Ok i' /\ fresh E t i' /\ m_refs m' = m_refs m /\ m_disks m' = m_disks m.
Proof.
  intros E t m k i l Tn Hi F S. unfold set_props. rewrite Hi. cbn [rbind].
  destruct (fresh_fold E t l i Tn F S) as (i' & -> & F'). cbn [rbind]. exists (with_hw (hset k i' (m_hw m)) m), i'.
  split; [reflexivity|]. split; [|split; [exact F'|split; reflexivity]]. unfold hitem. cbn [m_hw with_hw]. now rewrite hget_hset_same.
Qed.

(** ** A new drive on a controller *)

Definition kinds : list str := [L "ide"; L "scsi"; L "sata"].

Lemma is_a_type : forall E m k i ct, ids_ok (e_ver E) (m_hw m) -> In (k, i) (m_hw m) -> In ct kinds -> is_a ct i -> hardware_type E m k = Ok ct.
Proof.
  intros E m k i ct Hi Hin Hk (t & Et & Ht). unfold hardware_type.
  destruct (value_of_only E m k i RESOURCE_TYPE Hi Hin (RT_not_text E)) as (o & -> & Ho). cbn [rbind]. apply Ho in Ht as ->.
  destruct Hk as [<-|[<-|[<-|[]]]]; vm_compute in Et; injection Et as <-; vm_compute; reflexivity.
Qed.

Lemma not_too_high : forall ct z, In ct kinds -> (forall y, last_slot ct y -> (z <= y)%Z) -> too_high ct (L "scsi") (L "ide") 15 1 (zdec z) = Ok false.
Proof.
  intros ct z Hk Hz. unfold too_high, int_above. rewrite py_int_zdec. destruct Hk as [<-|[<-|[<-|[]]]]; [| |vm_compute; reflexivity].
  - cbn. f_equal. apply Z.ltb_ge. apply Hz. right. now split.
  - cbn. f_equal. apply Z.ltb_ge. assert (z <= 7)%Z by (apply Hz; left; now split). lia.
Qed.

Lemma drive_done : forall E m dt address a name ck ci ct disk file host, ids_ok (e_ver E) (m_hw m) -> identified E (m_hw m) -> In (ck, ci) (m_hw m) ->
  In ct kinds -> is_a ct ci -> too_high ct (L "scsi") (L "ide") 15 1 a = Ok false ->
  (match address with Some b => b = a | None => exists z, open_slot E m ck = Ok z /\ a = zdec z end) -> dt = L "harddisk" \/ dt = L "cdrom" ->
  (dt = L "harddisk" -> exists d sec, disk = Some d /\ m_disks m = Some sec /\ attr_at sec d (DISK_ID (e_ver E)) = Ok (Some host)) ->
  (dt = L "cdrom" -> attr_at (m_refs m) file (FILE_ID (e_ver E)) = Ok (Some host)) ->
  exists m' k, add_disk_device E m dt address name None disk file ck None = Ok (m', k).
Proof.
  intros E m dt address a name ck ci ct disk file host Hi Hd Hin Hk Ha Hz Had Hdt HH HC. unfold add_disk_device, create_disk_device. cbv zeta.
  rewrite (value_of_id E m ck ci Hi Hd Hin). cbn [rbind].
  assert (Eadr : match address with Some b => Ok b | None => do z <- open_slot E m ck; Ok (zdec z) end = Ok a).
  { destruct address as [b|]; [now rewrite Had|]. destruct Had as (z & -> & ->). reflexivity. }
  rewrite Eadr. cbn [rbind]. rewrite (is_a_type E m ck ci ct Hi Hin Hk Ha). cbn [rbind].
  rewrite Hz. cbn [rbind].
  assert (N : exists nm, match name with Some n => Ok n | None => if str_eqb dt (L "cdrom") then Ok (L "CD-ROM Drive") else
      if str_eqb dt (L "harddisk") then Ok (L "Hard Disk Drive") else Err EValueUnsupported end = Ok nm).
  { destruct name as [n|]; [eauto|]. destruct Hdt as [-> | ->]; eexists; vm_compute; reflexivity. }
  destruct N as [nm ->]. cbn [rbind].
  assert (T : exists t, res_map dt = Ok t /\ t <> []) by (destruct Hdt as [-> | ->]; eexists; (split; [vm_compute; reflexivity|discriminate])).
  destruct T as (t & Et & Tn). destruct (new_item_ok E (m_hw m) dt t Et) as (k & h' & En). rewrite En. cbn [rbind fst snd].
  apply new_all in En as (i & t' & Hf & Htk & -> & Hid & Et' & Hfr & Hown & Hrt & Hb). rewrite Et in Et'. injection Et' as <-.
  assert (F : fresh E t i).
  { split; [exact (proj1 Hid)|]. split; [|exact Hrt]. intros n Hn q w. apply Hb.
    - destruct Hn as [<-|[<-|[<-|[]]]]; destruct (e_ver E); discriminate.
    - destruct Hn as [<-|[<-|[<-|[]]]]; discriminate.
    - destruct Hn as [<-|[<-|[<-|[]]]]; unfold text_property; destruct (e_ver E); intros [X|X]; discriminate X. }
  assert (Hk0 : hitem k (m_hw m ++ [(k, i)]) = Ok i).
  { apply hitem_In; [|apply in_or_app; right; now left]. exact (proj1 (ids_app E (m_hw m) k i Hi Htk Hid)). }
  destruct (fresh_props E t (with_hw (m_hw m ++ [(k, i)]) m) k i [(ADDRESS_ON_PARENT, IStr a); (PARENT, as_input (Some (VStr ck)))] Tn Hk0 F)
    as (m1 & i1 & -> & H1 & F1 & R1 & D1).
  { intros nx [<-|[<-|[]]]; left; cbn; tauto. }
  cbn [rbind fst snd]. rewrite Et. cbn [rbind].
  assert (Hh : exists s, (if str_eqb dt (L "harddisk") then match disk with
       | Some d => do sec <- the_disks m1; do id <- attr_at sec d (DISK_ID (e_ver E)); plus (DISK_REF (e_ver E)) id
       | None => Err EAttributeError end
     else do id <- attr_at (m_refs m1) file (FILE_ID (e_ver E)); plus (FILE_REF (e_ver E)) id) = Ok s).
  { destruct Hdt as [-> | ->].
    - destruct (HH eq_refl) as (d & sec & -> & Ed & Ea). rewrite str_eqb_refl. unfold the_disks. rewrite D1. cbn [m_disks with_hw]. rewrite Ed. cbn [rbind].
      rewrite Ea. cbn [rbind plus]. eauto.
    - replace (str_eqb (L "cdrom") (L "harddisk")) with false by (vm_compute; reflexivity). rewrite R1. cbn [m_refs with_hw].
      rewrite (HC eq_refl). cbn [rbind plus]. eauto. }
  destruct Hh as [s ->]. cbn [rbind].
  destruct (fresh_props E t m1 k i1 ([(RESOURCE_TYPE, IStr t); (HOST_RESOURCE, IStr s)] ++ [(ELEMENT_NAME (e_ver E), IStr nm)] ++ []) Tn H1 F1)
    as (m2 & i2 & -> & _); [|cbn [rbind]; eauto].
  intros nx [<-|[<-|[<-|[]]]]; [right; reflexivity|left; cbn; tauto|left; cbn; tauto].
Qed.

(** ** The command *)

Lemma nothing_meant : forall E m (O : orderly E m) (A : attached E m) (S : sortable m) name (id : str),
  (forall f, ~ meant (e_ver E) m (Some name) (Some id) f) ->
  search_from_filename E m (Some name) = Ok nothing /\ search_from_file_id E m (Some id) = Ok nothing.
Proof.
  intros E m O A S name id N. destruct (leads_name E m O A S (Some name)) as (r1 & -> & L1). destruct (leads_id E m O A S (Some id)) as (r2 & -> & L2).
  split.
  - destruct L1 as [[-> _]|(j & x & s & d & c & dr & _ & _ & Es & Hx & Ex & _)]; [reflexivity|]. exfalso. apply (N x).
    split; [exact (file_at_In _ _ _ _ Hx)|]. left. eauto.
  - destruct L2 as [[-> _]|(j & x & s & d & c & dr & _ & _ & Es & Hx & Ex & _)]; [reflexivity|]. exfalso. apply (N x).
    split; [exact (file_at_In _ _ _ _ Hx)|]. right. eauto.
Qed.

Lemma nth_last : forall (A : Type) (l : list A) x, nth_error (l ++ [x]) (length l) = Some x.
Proof. intros A l x. rewrite nth_error_app2, Nat.sub_diag by lia. reflexivity. Qed.

Lemma elements_done : forall E fuel m im dt fid, dt = L "harddisk" \/ dt = L "cdrom" ->
  (dt = L "harddisk" -> exists cap, capacity_attrs fuel (e_ver E) (im_capacity im) = Ok cap) ->
  exists m1 m2 oj, add_file (e_ver E) m im fid None None = Ok (m1, length (echildren (m_refs m))) /\
    add_disk fuel (e_ver E) m1 im fid dt None = Ok (m2, oj) /\ m_hw m2 = m_hw m /\
    (dt = L "harddisk" -> exists d sec, oj = Some d /\ m_disks m2 = Some sec /\ attr_at sec d (DISK_ID (e_ver E)) = Ok (Some fid)) /\
    (dt = L "cdrom" -> attr_at (m_refs m2) (length (echildren (m_refs m))) (FILE_ID (e_ver E)) = Ok (Some fid)).
Proof.
  intros E fuel m im dt fid Hdt HC. eexists. unfold add_file at 1. cbv zeta.
  set (m1 := with_sources _ _).
  assert (AD : exists m2 oj, add_disk fuel (e_ver E) m1 im fid dt None = Ok (m2, oj) /\ m_hw m2 = m_hw m /\
    (dt = L "harddisk" -> exists d sec, oj = Some d /\ m_disks m2 = Some sec /\ attr_at sec d (DISK_ID (e_ver E)) = Ok (Some fid)) /\
    (dt = L "cdrom" -> m_refs m2 = m_refs m1)).
  { unfold add_disk. destruct Hdt as [-> | ->].
    - rewrite str_eqb_refl. cbn [negb]. cbv zeta. destruct (HC eq_refl) as [cap Ec]. rewrite Ec. cbn [rbind].
      set (sec0 := match m_disks m1 with Some s => s | None => new_disk_section (e_ver E) end).
      eexists _, _. split; [reflexivity|]. split; [reflexivity|]. split; [|discriminate].
      intros _. eexists _, _. split; [reflexivity|]. split; [reflexivity|]. unfold attr_at, child_at.
      assert (EC : forall l, echildren (set_children l sec0) = l) by (intros l; destruct sec0; reflexivity).
      rewrite EC, nth_last. cbn [rbind]. now rewrite (disk_elem_id fuel (e_ver E) (im_capacity im) cap fid fid Ec).
    - replace (str_eqb (L "cdrom") (L "harddisk")) with false by (vm_compute; reflexivity). cbn [negb].
      exists m1, None. split; [reflexivity|]. split; [reflexivity|]. split; [discriminate|]. reflexivity. }
  destruct AD as (m2 & oj & A1 & A2 & A3 & A4). exists m2, oj. split; [reflexivity|]. split; [exact A1|]. split; [exact A2|]. split; [exact A3|].
  intros Ed. rewrite (A4 Ed). unfold attr_at, child_at. subst m1. cbn [m_refs with_sources with_refs].
  assert (EC : forall l, echildren (set_children l (m_refs m)) = l) by (intros l; destruct (m_refs m); reflexivity).
  rewrite EC, nth_last. cbn [rbind]. unfold file_elem, get_attr. cbn. now destruct (e_ver E).
Qed.

Theorem add_disk_accepted : forall agree E fuel guess m im dt file_id controller diskname ct,
  orderly E m -> attached E m -> sortable m -> plain_addresses (m_hw m) ->
  dt = L "harddisk" \/ dt = L "cdrom" -> ct = match controller with Some c => c | None => guess dt end -> In ct kinds ->
  (forall f, ~ meant (e_ver E) m (Some (im_name im)) (Some (match file_id with Some s => s | None => im_name im end)) f) ->
  (exists k i, In (k, i) (m_hw m) /\ is_a ct i /\ ~ full (m_hw m) ct k) ->
  (dt = L "harddisk" -> exists cap, capacity_attrs fuel (e_ver E) (im_capacity im) = Ok cap) ->
  exists m' k, add_disk_worker agree E fuel guess m im dt file_id controller None None diskname None = Ok (m', k).
Proof.
  intros agree E fuel guess m im dt file_id controller diskname ct O A S P Hdt Hct Hk N (k0 & i0 & Hin0 & Ha0 & Nf) HC.
  assert (Hi : ids_ok (e_ver E) (m_hw m)) by exact (o_ids _ _ O). pose proof (o_named _ _ O) as Hd.
  destruct (nothing_meant E m O A S _ _ N) as [S1 S2].
  assert (SE : search_for_elements E m (im_name im) file_id controller None = Ok (None, None, None, None)).
  { unfold search_for_elements. rewrite S1.
    replace (match file_id with Some _ => file_id | None => Some (im_name im) end) with (Some (match file_id with Some s => s | None => im_name im end))
      by (destruct file_id; reflexivity). rewrite S2.
    assert (S3 : search_from_controller E m controller None = Ok nothing) by (destruct controller; reflexivity). rewrite S3. reflexivity. }
  unfold add_disk_worker. cbv zeta. rewrite SE. cbn [rbind].
  assert (G : match controller with Some c => Ok c | None => guess_controller_type E m guess None dt end = Ok ct) by (rewrite Hct; destruct controller; reflexivity).
  rewrite G. cbn [rbind].
  assert (KT : exists t, dget str_eqb ct RES_MAP = Some t) by (destruct Ha0 as (t & Et & _); eauto). destruct KT as [t KT].
  pose proof (find_open_spec E m ct t Hi Hd KT) as FS. destruct (find_open_controller E m ct) as [[[k addr]|]|e].
  3: { exfalso. destruct S as [keys Sk]. exact (FS keys Sk). }
  2: { exfalso. apply Nf. exact (FS k0 i0 Hin0 Ha0). }
  destruct FS as (ks1 & ks2 & ca & z & (_ & _ & W) & _ & X3 & -> & _ & X5).
  destruct (proj1 (W k)) as (ci & Hci & Wc & _); [apply in_or_app; right; now left|]. specialize (Wc ct eq_refl).
  cbn [rbind]. unfold validate_elements, confirm_elements. cbv zeta. cbn [rbind]. rewrite (is_a_type E m k ci ct Hi Hci Hk Wc). cbn [rbind].
  unfold match_or_die. rewrite str_eqb_refl. cbn [rbind].
  assert (I1 : (match file_id with None => Ok file_id | Some _ => Ok file_id end : result (option str)) = Ok file_id) by (destruct file_id; reflexivity).
  rewrite I1. cbn [rbind]. rewrite I1. cbn [rbind].
  set (fid := match file_id with Some s => s | None => im_name im end).
  destruct (elements_done E fuel m im dt fid Hdt HC) as (m1 & m2 & oj & -> & EA & HW & HD1 & HD2). cbn [rbind fst snd]. rewrite EA. cbn [rbind fst snd].
  assert (NC : ~ In ":"%char (shown_value E ca)).
  { destruct ca as [w|]; [|intros F; cbn in F; intuition discriminate]. destruct (value_of_only E m k ci ADDRESS Hi Hci (ADDRESS_not_text E)) as (o & Eo & Ho).
    rewrite X3 in Eo. injection Eo as <-. destruct (proj1 (Ho w) eq_refl) as [[q Hq] _]. destruct (P k ci q w Hci Hq) as (s & -> & Hs). exact Hs. }
  rewrite (split_two_parts _ _ NC). cbn [rbind fst snd].
  unfold add_controller_device. cbn [rbind option_map fst snd].
  apply (drive_done E m2 dt (Some (zdec z)) (zdec z) diskname k ci ct oj (length (echildren (m_refs m))) fid); try assumption; try (rewrite HW; assumption).
  - now apply not_too_high.
  - reflexivity.
Qed.

(** Without a controller that has room the user is asked. *)
Theorem add_disk_refused : forall agree E fuel guess m im dt file_id controller subtype diskname desc ct,
  orderly E m -> attached E m -> sortable m ->
  ct = match controller with Some c => c | None => guess dt end -> (exists t, dget str_eqb ct RES_MAP = Some t) ->
  (forall f, ~ meant (e_ver E) m (Some (im_name im)) (Some (match file_id with Some s => s | None => im_name im end)) f) ->
  (forall k i, In (k, i) (m_hw m) -> is_a ct i -> full (m_hw m) ct k) -> agree (AddController ct) = false ->
  add_disk_worker agree E fuel guess m im dt file_id controller subtype None diskname desc = Err ESystemExit.
Proof.
  intros agree E fuel guess m im dt file_id controller subtype diskname desc ct O A S Hct [t KT] N F NA.
  assert (Hi : ids_ok (e_ver E) (m_hw m)) by exact (o_ids _ _ O). pose proof (o_named _ _ O) as Hd.
  destruct (nothing_meant E m O A S _ _ N) as [S1 S2].
  assert (SE : search_for_elements E m (im_name im) file_id controller None = Ok (None, None, None, None)).
  { unfold search_for_elements. rewrite S1.
    replace (match file_id with Some _ => file_id | None => Some (im_name im) end) with (Some (match file_id with Some s => s | None => im_name im end))
      by (destruct file_id; reflexivity). rewrite S2.
    assert (S3 : search_from_controller E m controller None = Ok nothing) by (destruct controller; reflexivity). rewrite S3. reflexivity. }
  unfold add_disk_worker. cbv zeta. rewrite SE. cbn [rbind].
  assert (G : match controller with Some c => Ok c | None => guess_controller_type E m guess None dt end = Ok ct) by (rewrite Hct; destruct controller; reflexivity).
  rewrite G. cbn [rbind].
  pose proof (find_open_spec E m ct t Hi Hd KT) as FS. destruct (find_open_controller E m ct) as [[[k addr]|]|e].
  - exfalso. destruct FS as (ks1 & ks2 & ca & z & (_ & _ & W) & _ & _ & _ & (X1 & X2 & _) & X5).
    destruct (proj1 (W k)) as (ci & Hci & Wc & _); [apply in_or_app; right; now left|]. specialize (Wc ct eq_refl).
    destruct (F k ci Hci Wc) as (y & Ly & Hy). apply X2, Hy. split; [exact X1|now apply X5].
  - cbn [rbind]. unfold validate_elements, confirm_elements. cbv zeta. cbn [rbind]. unfold confirm_or_die. rewrite NA. reflexivity.
  - exfalso. destruct S as [keys Sk]. exact (FS keys Sk).
Qed.

(** ** A given address *)

Lemma split_parts : forall x y, ~ In ":"%char x -> ~ In ":"%char y -> split_on ":"%char (x ++ L ":" ++ y) = [x; y].
Proof.
  intros x y H1 H2. change (x ++ L ":" ++ y) with (x ++ ":"%char :: y). unfold split_on. rewrite split_on_aux_app by now apply no_char. cbn [rev app].
  unfold split_on. rewrite split_on_aux_last by now apply no_char. reflexivity.
Qed.

Lemma sorted_find : forall E m rt o, ids_ok (e_ver E) (m_hw m) -> sortable m -> plain_conditions (e_ver E) o ->
  (forall t, rt = Some t -> exists c, dget str_eqb t RES_MAP = Some c) ->
  (forall k i k' i', In (k, i) (m_hw m) -> In (k', i') (m_hw m) -> wanted E rt o [None] i -> wanted E rt o [None] i' -> k = k') ->
  exists r, find_item E (m_hw m) rt o None = Ok r.
Proof.
  intros E m rt o Hi [keys Sk] P T U. pose proof (find_item_wanted E (m_hw m) rt o None Hi P) as W.
  destruct (find_item E (m_hw m) rt o None) as [r|e]; [eauto|]. exfalso.
  assert (X : (exists s, natural_sort (map fst (m_hw m)) = Err s) \/ (exists t, rt = Some t /\ dget str_eqb t RES_MAP = None) -> False).
  { intros [[s X]|(t & X & Y)]; [congruence|]. destruct (T t X) as [c Z]. congruence. }
  destruct e; try exact (X W). destruct W as (k & i & k' & i' & H1 & H2 & N & W1 & W2). apply N. exact (U k i k' i' H1 H2 W1 W2).
Qed.

Theorem add_disk_at_accepted : forall agree E fuel guess m im dt file_id c x y diskname ck ci,
  orderly E m -> attached E m -> sortable m -> dt = L "harddisk" \/ dt = L "cdrom" -> In c kinds ->
  ~ In ":"%char x -> ~ In ":"%char y ->
  (forall f, ~ meant (e_ver E) m (Some (im_name im)) (Some (match file_id with Some s => s | None => im_name im end)) f) ->
  In (ck, ci) (m_hw m) -> is_a c ci -> present E ci None -> only_value (i_props ci) ADDRESS (VStr x) ->
  (forall k i, In (k, i) (m_hw m) -> present E i None -> is_a c i -> only_value (i_props i) ADDRESS (VStr x) -> k = ck) ->
  (forall k i, In (k, i) (m_hw m) -> present E i None -> only_value (i_props i) PARENT (VStr ck) -> ~ only_value (i_props i) ADDRESS_ON_PARENT (VStr y)) ->
  (c = L "scsi" -> exists z, py_int y = Some z /\ (z <= 15)%Z) -> (c = L "ide" -> exists z, py_int y = Some z /\ (z <= 1)%Z) ->
  (dt = L "harddisk" -> exists cap, capacity_attrs fuel (e_ver E) (im_capacity im) = Ok cap) ->
  exists m' k, add_disk_worker agree E fuel guess m im dt file_id (Some c) None (Some (x ++ L ":" ++ y)) diskname None = Ok (m', k).
Proof.
  intros agree E fuel guess m im dt file_id c x y diskname ck ci O A S Hdt Hk Nx Ny N Hin Ha Pc Hx Ux Uy L1 L2 HC.
  assert (Hi : ids_ok (e_ver E) (m_hw m)) by exact (o_ids _ _ O). pose proof (o_named _ _ O) as Hd.
  destruct (nothing_meant E m O A S _ _ N) as [S1 S2].
  assert (KT : exists t, dget str_eqb c RES_MAP = Some t) by (destruct Ha as (t & Et & _); eauto).
  assert (C1 : plain_conditions (e_ver E) [(ADDRESS, Some (VStr x))]) by (intros q [<-|[]]; apply ADDRESS_not_text).
  assert (C2 : plain_conditions (e_ver E) [(PARENT, Some (VStr ck)); (ADDRESS_ON_PARENT, Some (VStr y))])
    by (intros q [<-|[<-|[]]]; [apply PARENT_not_text|apply AOP_not_text]).
  assert (WU : forall k i, In (k, i) (m_hw m) -> wanted E (Some c) [(ADDRESS, Some (VStr x))] [None] i -> k = ck).
  { intros k i Hk' (W1 & W2 & W3). apply (Ux k i Hk'); [exact (W2 None (or_introl eq_refl))|exact (W1 c eq_refl)|exact (W3 _ (or_introl eq_refl))]. }
  assert (WC : wanted E (Some c) [(ADDRESS, Some (VStr x))] [None] ci).
  { split; [intros t Et; injection Et as <-; exact Ha|]. split; [intros q [<-|[]]; exact Pc|]. intros q [<-|[]]. exact Hx. }
  assert (S3 : search_from_controller E m (Some c) (Some (x ++ L ":" ++ y)) = Ok (None, None, Some ck, None)).
  { unfold search_from_controller. cbv zeta. rewrite (split_parts x y Nx Ny).
    destruct (sorted_find E m (Some c) [(ADDRESS, Some (VStr x))] Hi S C1) as [r Er].
    { intros t Et. injection Et as <-. exact KT. }
    { intros k i k' i' H1 H2 W1 W2. rewrite (WU k i H1 W1). symmetry. exact (WU k' i' H2 W2). }
    rewrite Er. cbn [rbind]. destruct r as [k|]; [|exfalso; exact (found_nothing E _ _ _ _ Hi C1 Er ck ci Hin WC)].
    pose proof (find_item_wanted E (m_hw m) (Some c) [(ADDRESS, Some (VStr x))] None Hi C1) as F. rewrite Er in F.
    destruct F as (i & _ & _ & F). rewrite <- (F ck ci Hin WC) in *. rewrite (value_of_id E m ck ci Hi Hd Hin). cbn [rbind].
    assert (NW : forall k' i', In (k', i') (m_hw m) -> ~ wanted E None [(PARENT, Some (VStr ck)); (ADDRESS_ON_PARENT, Some (VStr y))] [None] i').
    { intros k' i' H1 (_ & W2 & W). apply (Uy k' i' H1); [exact (W2 None (or_introl eq_refl))|exact (W _ (or_introl eq_refl))|exact (W _ (or_intror (or_introl eq_refl)))]. }
    destruct (sorted_find E m None [(PARENT, Some (VStr ck)); (ADDRESS_ON_PARENT, Some (VStr y))] Hi S C2) as [r Er2].
    { discriminate. }
    { intros k1 i1 k2 i2 H1 _ W1 _. exfalso. exact (NW k1 i1 H1 W1). }
    rewrite Er2. cbn [rbind]. destruct r as [dk|]; [|reflexivity]. exfalso.
    pose proof (find_item_wanted E (m_hw m) None [(PARENT, Some (VStr ck)); (ADDRESS_ON_PARENT, Some (VStr y))] None Hi C2) as G. rewrite Er2 in G.
    destruct G as (i1 & H1 & W1 & _). exact (NW dk i1 H1 W1). }
  assert (SE : search_for_elements E m (im_name im) file_id (Some c) (Some (x ++ L ":" ++ y)) = Ok (None, None, Some ck, None)).
  { unfold search_for_elements. rewrite S1.
    replace (match file_id with Some _ => file_id | None => Some (im_name im) end) with (Some (match file_id with Some s => s | None => im_name im end))
      by (destruct file_id; reflexivity). rewrite S2, S3. reflexivity. }
  unfold add_disk_worker. cbv zeta. rewrite SE. cbn [rbind].
  unfold validate_elements, confirm_elements. cbv zeta. cbn [rbind]. rewrite (is_a_type E m ck ci c Hi Hin Hk Ha). cbn [rbind].
  unfold match_or_die. rewrite str_eqb_refl. cbn [rbind].
  assert (I1 : (match file_id with None => Ok file_id | Some _ => Ok file_id end : result (option str)) = Ok file_id) by (destruct file_id; reflexivity).
  rewrite I1. cbn [rbind]. rewrite I1. cbn [rbind].
  set (fid := match file_id with Some s => s | None => im_name im end).
  destruct (elements_done E fuel m im dt fid Hdt HC) as (m1 & m2 & oj & -> & EA & HW & HD1 & HD2). cbn [rbind fst snd]. rewrite EA. cbn [rbind fst snd].
  rewrite (split_parts x y Nx Ny). cbn [rbind fst snd].
  unfold add_controller_device. cbn [rbind option_map fst snd].
  apply (drive_done E m2 dt (Some y) y diskname ck ci c oj (length (echildren (m_refs m))) fid); try assumption; try (rewrite HW; assumption); [|reflexivity].
  unfold too_high, int_above. destruct Hk as [<-|[<-|[<-|[]]]]; [| |vm_compute; reflexivity].
  - destruct (L2 eq_refl) as (z & -> & Hz). cbn. f_equal. apply Z.ltb_ge. exact Hz.
  - destruct (L1 eq_refl) as (z & -> & Hz). cbn. f_equal. apply Z.ltb_ge. exact Hz.
Qed.

(** ** A new controller *)

Lemma raw_loop_In : forall d P acc v, raw_loop d P acc = Some v -> acc = Some v \/ exists s, In (v, s) d.
Proof.
  induction d as [|[w s] d IH]; intros P acc v H; cbn [raw_loop] in H; [now left|].
  destruct (psubset P s); [injection H as ->; right; exists s; now left|].
  destruct (pmem None s).
  - apply IH in H as [H|[s' H]]; [injection H as ->; right; exists s; now left|]. right. exists s'. now right.
  - destruct (is_nil _); [|discriminate]. apply IH in H as [H|[s' H]]; [now left|]. right. exists s'. now right.
Qed.

Lemma raw_own : forall ver ps n P v, good_props ver ps -> get_raw ps n (Some P) = Some v -> exists q, own ps n q v.
Proof.
  intros ver ps n P v G H. unfold get_raw in H. apply raw_loop_In in H as [H|[s H]]; [discriminate|].
  destruct (prget n ps) as [d|] eqn:Ed; [|destruct H]. destruct (proj1 (proj2 (good_dict _ _ _ _ G Ed)) v s H) as (_ & Hs & _).
  destruct s as [|q s]; [contradiction|]. exists q. apply own_iff; [apply G|]. exists d. split; [exact Ed|]. exists (q :: s). split; [exact H|now left].
Qed.

Definition can_substitute (E : env) (nm : str) : Prop := forall s, exists t, re_sub E nm (L "_EN_") s = Ok t.

Lemma description_ok : forall E i nm x, reachable (e_ver E) i -> no_marks i -> only_value (i_props i) (ELEMENT_NAME (e_ver E)) (VStr nm) ->
  nm <> [] -> has_wildcard nm = false -> can_substitute E nm -> exists i', set_property E i ITEM_DESCRIPTION x [] true = Ok i'.
Proof.
  intros E i nm x R N O Hne Hw HS. pose proof (reachable_good _ _ R) as G. set (P := profs_of (i_props i) ITEM_DESCRIPTION []).
  assert (W : exists v, add_wildcards E (i_props i) ITEM_DESCRIPTION (to_value E ITEM_DESCRIPTION x) P = Ok v).
  { unfold add_wildcards. replace (is_desc ITEM_DESCRIPTION) with true by (vm_compute; reflexivity).
    assert (T : is_text E ITEM_DESCRIPTION = true) by (unfold is_text; rewrite orb_true_r || (destruct (str_eqb _ _); reflexivity); reflexivity).
    rewrite T.
    assert (S0 : exists v, sub_value E (i_props i) (ELEMENT_NAME (e_ver E)) (vtext E) (L "_EN_") P (to_value E ITEM_DESCRIPTION x) = Ok v).
    { unfold sub_value. assert (Q : get_value E (i_props i) (ELEMENT_NAME (e_ver E)) (Some P) = Ok None \/ get_value E (i_props i) (ELEMENT_NAME (e_ver E)) (Some P) = Ok (Some (VStr nm))).
      { unfold get_value. destruct (get_raw (i_props i) (ELEMENT_NAME (e_ver E)) (Some P)) as [w|] eqn:Er; [|now left].
        destruct (raw_own _ _ _ _ _ G Er) as [q Hq]. apply (proj2 O) in Hq as ->. right. unfold replace_wildcards.
        assert (Tr : truthy (VStr nm) = true) by (destruct nm; [contradiction|reflexivity]). rewrite Tr. cbn [negb].
        assert (D : is_desc (ELEMENT_NAME (e_ver E)) = false) by (destruct (e_ver E); vm_compute; reflexivity). rewrite D.
        assert (Tx : is_text E (ELEMENT_NAME (e_ver E)) = true) by (unfold is_text; rewrite str_eqb_refl; reflexivity). rewrite Tx.
        rewrite (no_own_raw (e_ver E) i RESOURCE_SUB_TYPE P R) by (apply N; cbn; tauto).
        rewrite (no_own_raw (e_ver E) i VIRTUAL_QUANTITY P R) by (apply N; cbn; tauto).
        rewrite (no_own_raw (e_ver E) i CONNECTION P R) by (apply N; cbn; tauto). cbn [option_map sub_opt rbind vtext]. rewrite Hw. reflexivity. }
      destruct Q as [-> | ->]; cbn [rbind]; [eauto|]. destruct (HS (vtext E (to_value E ITEM_DESCRIPTION x))) as [t Ht]. cbn [vtext] in *. rewrite Ht. cbn [rbind]. eauto. }
    destruct S0 as [v ->]. cbn [rbind]. unfold sub_value.
    rewrite (no_own_value E i VIRTUAL_QUANTITY P R) by (apply N; cbn; tauto). cbn [rbind].
    rewrite (no_own_value E i RESOURCE_SUB_TYPE P R) by (apply N; cbn; tauto). cbn [rbind].
    rewrite (no_own_value E i CONNECTION P R) by (apply N; cbn; tauto). cbn [rbind]. eauto. }
  destruct W as [v W]. apply (few_ok E i ITEM_DESCRIPTION x [] v G W). left. unfold RESOURCE_TYPE. destruct (e_ver E); split; discriminate.
Qed.

Lemma kept_marks : forall E i n x i', reachable (e_ver E) i -> no_marks i -> ~ In n [VIRTUAL_QUANTITY; RESOURCE_SUB_TYPE; CONNECTION] ->
  set_property E i n x [] true = Ok i' -> no_marks i'.
Proof.
  intros E i n x i' R N Hn H n' Hn' q w F. apply (N n' Hn' q w). apply (set_other_rec E i n x [] true i' n' q w R); [|exact H|exact F]. now intros ->.
Qed.

Definition controller_name (ct : str) : str := upper_type ct ++ L " Controller".
Lemma names_plain : forall E ct, In ct kinds -> can_substitute E (controller_name ct).
Proof.
  intros E ct Hk s. unfold re_sub. assert (X : plain_pattern (controller_name ct) && plain_repl (L "_EN_") = true) by (destruct Hk as [<-|[<-|[<-|[]]]]; vm_compute; reflexivity).
  rewrite X. eauto.
Qed.

Lemma controller_address : forall E m ct t k i keys, ids_ok (e_ver E) (m_hw m) -> natural_sort (map fst (m_hw m)) = Ok keys ->
  dget str_eqb ct RES_MAP = Some t -> brand_new E (m_hw m) k i -> (forall q w, ~ own (i_props i) ADDRESS q w) ->
  exists a, (do ks <- find_all_items E (m_hw m ++ [(k, i)]) (Some ct) [] [];
             do l <- values_of E (with_hw (m_hw m ++ [(k, i)]) m) ADDRESS ks;
             do z <- lowest_free l; Ok (zdec z)) = Ok (zdec a) /\ lowest_unused (controller_at (m_hw m) ct) a.
Proof.
  intros E m ct t k i keys Hi Hs Et B0 Na. pose proof B0 as (Hf & Htk & Hid & _). pose proof (ids_app E (m_hw m) k i Hi Htk Hid) as Hi'.
  destruct (sort_more (map fst (m_hw m)) k keys Hs) as [keys' Hs']; [destruct Hf as (z & -> & _); apply zdec_plain|].
  destruct (find_all_ok E (m_hw m ++ [(k, i)]) (Some ct) [] [] keys' Hi') as [ks Hks]; [intros c []|rewrite map_app; exact Hs'|intros c F; injection F as <-; eauto|].
  rewrite Hks. cbn [rbind]. pose proof Hks as Hks'. apply find_all_wanted in Hks' as (_ & _ & W); [|exact Hi'|intros c []].
  destruct (values_of_spec E (with_hw (m_hw m ++ [(k, i)]) m) ADDRESS ks Hi' (ADDRESS_not_text E)) as (l & El & _).
  { intros k' Hk'. apply W in Hk' as (j & Hj & _). now exists j. }
  rewrite El. cbn [rbind]. destruct (lowest_free_ok l) as (z & -> & Hz). cbn [rbind]. exists z. split; [reflexivity|].
  revert Hz. apply lowest_unused_iff. now apply (new_lowest E m ct k i l ks t Hi B0 Et).
Qed.

Lemma controller_made : forall E m ct sub address, ids_ok (e_ver E) (m_hw m) -> In ct kinds -> can_substitute E (controller_name ct) ->
  (forall t k i, dget str_eqb ct RES_MAP = Some t -> brand_new E (m_hw m) k i -> (forall q w, ~ own (i_props i) ADDRESS q w) ->
    exists a, match address with Some a => Ok a | None =>
                do ks <- find_all_items E (m_hw m ++ [(k, i)]) (Some ct) [] [];
                do l <- values_of E (with_hw (m_hw m ++ [(k, i)]) m) ADDRESS ks;
                do z <- lowest_free l; Ok (zdec z) end = Ok a /\ too_high ct (L "scsi") (L "ide") 3 1 a = Ok false) ->
  exists m' k, add_controller_device E m ct sub address None = Ok (m', k).
Proof.
  intros E m ct sub address Hi Hk HS HA. unfold add_controller_device.
  assert (Ht : exists t, res_map ct = Ok t) by (destruct Hk as [<-|[<-|[<-|[]]]]; vm_compute; eauto). destruct Ht as [t Ht].
  destruct (new_item_ok E (m_hw m) ct t Ht) as (k & h' & En). rewrite En. cbn [rbind fst snd].
  apply new_all in En as (i & t' & Hf & Htk & -> & Hid & Et & Hfr & Hown & Hrt & Hbb). rewrite Ht in Et. injection Et as <-.
  assert (B0 : brand_new E (m_hw m) k i) by (repeat split; try apply Hid; assumption).
  pose proof (ids_app E (m_hw m) k i Hi Htk Hid) as Hi'. pose proof (proj1 (res_map_dget _ _) Ht) as Et.
  assert (N1 : ADDRESS <> INSTANCE_ID (e_ver E)) by (destruct (e_ver E); discriminate).
  cbn [m_hw with_hw]. destruct (HA t k i Et B0) as (a & -> & TH); [intros q w; apply Hbb; [exact N1|discriminate|apply ADDRESS_not_text]|]. cbn [rbind].
  rewrite TH. cbn [rbind].
  assert (F : no_marks i).
  { intros n Hn q w. apply Hbb.
    - destruct Hn as [<-|[<-|[<-|[]]]]; destruct (e_ver E); discriminate.
    - destruct Hn as [<-|[<-|[<-|[]]]]; discriminate.
    - destruct Hn as [<-|[<-|[<-|[]]]]; unfold text_property; destruct (e_ver E); intros [X|X]; discriminate X. }
  assert (R0 : reachable (e_ver E) i) by exact (proj1 Hid).
  assert (Hk0 : hitem k (m_hw m ++ [(k, i)]) = Ok i) by (apply hitem_In; [exact (proj1 Hi')|apply in_or_app; right; now left]).
  destruct (plain_ok E i ADDRESS (IStr a) [] R0 (ADDRESS_not_text E) N1) as [i1 E1]; [discriminate|].
  pose proof (R_set _ E i _ _ _ true i1 eq_refl R0 E1) as R1.
  assert (F1 : no_marks i1) by (apply (kept_marks E i _ _ i1 R0 F) in E1; [exact E1|intros [X|[X|[X|[]]]]; discriminate X]).
  destruct (name_ok E i1 (IStr (controller_name ct)) [] R1 F1) as [i2 E2].
  pose proof (R_set _ E i1 _ _ _ true i2 eq_refl R1 E2) as R2.
  assert (F2 : no_marks i2) by (apply (kept_marks E i1 _ _ i2 R1 F1) in E2; [exact E2|destruct (e_ver E); intros [X|[X|[X|[]]]]; discriminate X]).
  assert (V : to_value E (ELEMENT_NAME (e_ver E)) (IStr (controller_name ct)) = VStr (controller_name ct)) by (destruct (e_ver E); reflexivity).
  assert (Ne : controller_name ct <> []) by (destruct Hk as [<-|[<-|[<-|[]]]]; discriminate).
  assert (O2 : only_value (i_props i2) (ELEMENT_NAME (e_ver E)) (VStr (controller_name ct))).
  { rewrite <- V. apply (set_name_only E i1 _ _ i2 R1); [|rewrite V; destruct (controller_name ct); [contradiction|reflexivity]|exact E2].
    intros P. apply name_as_is; [exact R1|]. intros n q w Hn. now apply F1. }
  destruct (description_ok E i2 (controller_name ct) (IStr (upper_type ct ++ L " Controller " ++ a)) R2 F2 O2 Ne) as [i3 E3];
    [destruct Hk as [<-|[<-|[<-|[]]]]; vm_compute; reflexivity|exact HS|].
  pose proof (R_set _ E i2 _ _ _ true i3 eq_refl R2 E3) as R3.
  unfold set_props at 1. cbn [m_hw with_hw]. rewrite Hk0. cbn [rbind fold_result fst snd]. rewrite E1. cbn [rbind].
  change (upper_type ct ++ L " Controller") with (controller_name ct). rewrite E2. cbn [rbind]. rewrite E3. cbn [rbind fst snd].
  destruct sub as [s|]; [|eauto].
  destruct (plain_ok E i3 RESOURCE_SUB_TYPE s [] R3) as [i4 E4]; [unfold text_property; destruct (e_ver E); intros [X|X]; discriminate X|destruct (e_ver E); discriminate|discriminate|].
  unfold set_props, hitem. cbn [m_hw with_hw]. rewrite hget_hset_same. cbn [rbind fold_result fst snd]. rewrite E4. cbn [rbind]. eauto.
Qed.

Theorem add_controller_accepted : forall E m ct sub keys b, ids_ok (e_ver E) (m_hw m) -> natural_sort (map fst (m_hw m)) = Ok keys ->
  In ct kinds -> (0 <= b)%Z -> ~ controller_at (m_hw m) ct b -> (forall y, last_controller ct y -> (b <= y)%Z) ->
  can_substitute E (controller_name ct) -> exists m' k, add_controller_device E m ct sub None None = Ok (m', k).
Proof.
  intros E m ct sub keys b Hi Hs Hk Hb Hfree Hlast HS. apply controller_made; try assumption. intros t k i Et B0 Na.
  destruct (controller_address E m ct t k i keys Hi Hs Et B0 Na) as (a & -> & _ & _ & Q). exists (zdec a). split; [reflexivity|].
  assert (Hab : (a <= b)%Z) by (destruct (Z.le_gt_cases a b) as [X|X]; [exact X|exfalso; apply Hfree; apply Q; lia]).
  unfold too_high, int_above. rewrite py_int_zdec. destruct Hk as [<-|[<-|[<-|[]]]]; [| |vm_compute; reflexivity]; cbn; f_equal; apply Z.ltb_ge;
    (etransitivity; [exact Hab|]); apply Hlast; [right|left]; now split.
Qed.

(** Without an address there is no new controller. *)
Theorem add_controller_refused : forall E m ct sub y, ids_ok (e_ver E) (m_hw m) -> sortable m -> In ct kinds ->
  last_controller ct y -> (forall b, (0 <= b <= y)%Z -> controller_at (m_hw m) ct b) ->
  add_controller_device E m ct sub None None = Err EValueTooHigh.
Proof.
  intros E m ct sub y Hi [keys Hs] Hk Hy Hall. unfold add_controller_device.
  assert (Ht : exists t, res_map ct = Ok t) by (destruct Hk as [<-|[<-|[<-|[]]]]; vm_compute; eauto). destruct Ht as [t Ht].
  destruct (new_item_ok E (m_hw m) ct t Ht) as (k & h' & En). rewrite En. cbn [rbind fst snd].
  apply new_all in En as (i & t' & Hf & Htk & -> & Hid & Et & Hfr & Hown & Hrt & Hbb). rewrite Ht in Et. injection Et as <-.
  assert (B0 : brand_new E (m_hw m) k i) by (repeat split; try apply Hid; assumption).
  assert (N1 : ADDRESS <> INSTANCE_ID (e_ver E)) by (destruct (e_ver E); discriminate).
  cbn [m_hw with_hw].
  destruct (controller_address E m ct t k i keys Hi Hs (proj1 (res_map_dget _ _) Ht) B0) as (a & -> & Q0 & Q1 & _); [intros q w; apply Hbb; [exact N1|discriminate|apply ADDRESS_not_text]|].
  cbn [rbind].
  assert (Ha : (y < a)%Z) by (destruct (Z.le_gt_cases a y) as [X|X]; [exfalso; apply Q1, Hall; lia|lia]).
  assert (TH : too_high ct (L "scsi") (L "ide") 3 1 (zdec a) = Ok true).
  { unfold too_high, int_above. rewrite py_int_zdec. destruct Hy as [[-> ->]|[-> ->]]; cbn; f_equal; apply Z.ltb_lt; exact Ha. }
  rewrite TH. reflexivity.
Qed.

Lemma subtype_found : forall E m ct keys, ids_ok (e_ver E) (m_hw m) -> natural_sort (map fst (m_hw m)) = Ok keys ->
  (exists t, dget str_eqb ct RES_MAP = Some t) -> exists s, get_common_subtype E m ct = Ok s.
Proof.
  intros E m ct keys Hi Hs Ht. unfold get_common_subtype.
  destruct (find_all_ok E (m_hw m) (Some ct) [] [] keys Hi) as [ks Hks]; [intros c []|exact Hs|intros c F; injection F as <-; exact Ht|].
  rewrite Hks. cbn [rbind]. apply find_all_wanted in Hks as (_ & _ & W); [|exact Hi|intros c []].
  assert (K : forall k, In k ks -> exists i, In (k, i) (m_hw m)) by (intros k Hk; apply W in Hk as (j & Hj & _); eauto).
  clear W. generalize (@None value). induction ks as [|k ks IH]; intros sub; cbn [common_subtype]; [eauto|].
  destruct (K k (or_introl eq_refl)) as [i Hin].
  assert (T : ~ text_property (e_ver E) RESOURCE_SUB_TYPE) by (unfold text_property; destruct (e_ver E); intros [X|X]; discriminate X).
  destruct (value_of_only E m k i RESOURCE_SUB_TYPE Hi Hin T) as (o & -> & _). cbn [rbind].
  assert (IH' : forall s0, exists s, common_subtype E m s0 ks = Ok s) by (apply IH; intros k' Hk'; apply K; now right).
  destruct sub; [|apply IH']. destruct (opt_value_eqb _ _); [apply IH'|eauto].
Qed.

(** With the consent of the user a new controller is made for the disk. *)
Theorem add_disk_controller_accepted : forall agree E fuel guess m im dt file_id controller subtype diskname ct b,
  orderly E m -> attached E m -> sortable m ->
  (forall k i w, In (k, i) (m_hw m) -> only_value (i_props i) PARENT (VStr w) -> exists j, In (w, j) (m_hw m)) ->
  dt = L "harddisk" \/ dt = L "cdrom" -> ct = match controller with Some c => c | None => guess dt end -> In ct kinds ->
  (forall f, ~ meant (e_ver E) m (Some (im_name im)) (Some (match file_id with Some s => s | None => im_name im end)) f) ->
  (forall k i, In (k, i) (m_hw m) -> is_a ct i -> full (m_hw m) ct k) -> agree (AddController ct) = true ->
  (0 <= b)%Z -> ~ controller_at (m_hw m) ct b -> (forall y, last_controller ct y -> (b <= y)%Z) ->
  can_substitute E (controller_name ct) ->
  (dt = L "harddisk" -> exists cap, capacity_attrs fuel (e_ver E) (im_capacity im) = Ok cap) ->
  exists m' k, add_disk_worker agree E fuel guess m im dt file_id controller subtype None diskname None = Ok (m', k).
Proof.
  intros agree E fuel guess m im dt file_id controller subtype diskname ct b O A S ND Hdt Hct Hk N F NA Hb Hfree Hlast HS HC.
  assert (Hi : ids_ok (e_ver E) (m_hw m)) by exact (o_ids _ _ O). pose proof (o_named _ _ O) as Hd.
  destruct (nothing_meant E m O A S _ _ N) as [S1 S2].
  assert (SE : search_for_elements E m (im_name im) file_id controller None = Ok (None, None, None, None)).
  { unfold search_for_elements. rewrite S1.
    replace (match file_id with Some _ => file_id | None => Some (im_name im) end) with (Some (match file_id with Some s => s | None => im_name im end))
      by (destruct file_id; reflexivity). rewrite S2.
    assert (S3 : search_from_controller E m controller None = Ok nothing) by (destruct controller; reflexivity). rewrite S3. reflexivity. }
  unfold add_disk_worker. cbv zeta. rewrite SE. cbn [rbind].
  assert (G : match controller with Some c => Ok c | None => guess_controller_type E m guess None dt end = Ok ct) by (rewrite Hct; destruct controller; reflexivity).
  rewrite G. cbn [rbind].
  assert (KT : exists t, dget str_eqb ct RES_MAP = Some t) by (destruct Hk as [<-|[<-|[<-|[]]]]; eexists; vm_compute; reflexivity). destruct KT as [t KT].
  destruct S as [keys Sk].
  assert (FO : find_open_controller E m ct = Ok None).
  { pose proof (find_open_spec E m ct t Hi Hd KT) as FS. destruct (find_open_controller E m ct) as [[[k addr]|]|e]; [|reflexivity|exfalso; exact (FS keys Sk)].
    exfalso. destruct FS as (ks1 & ks2 & ca & z & (_ & _ & W) & _ & _ & _ & (X1 & X2 & _) & X5).
    destruct (proj1 (W k)) as (ci & Hci & Wc & _); [apply in_or_app; right; now left|]. specialize (Wc ct eq_refl).
    destruct (F k ci Hci Wc) as (y & Ly & Hy). apply X2, Hy. split; [exact X1|now apply X5]. }
  rewrite FO. cbn [rbind]. unfold validate_elements, confirm_elements. cbv zeta. cbn [rbind]. unfold confirm_or_die. rewrite NA. cbn [rbind].
  assert (I1 : (match file_id with None => Ok file_id | Some _ => Ok file_id end : result (option str)) = Ok file_id) by (destruct file_id; reflexivity).
  rewrite I1. cbn [rbind]. rewrite I1. cbn [rbind].
  set (fid := match file_id with Some s => s | None => im_name im end).
  destruct (elements_done E fuel m im dt fid Hdt HC) as (m1 & m2 & oj & -> & EA & HW & HD1 & HD2). cbn [rbind fst snd]. rewrite EA. cbn [rbind fst snd].
  assert (Hi2 : ids_ok (e_ver E) (m_hw m2)) by (rewrite HW; exact Hi). assert (Sk2 : natural_sort (map fst (m_hw m2)) = Ok keys) by (rewrite HW; exact Sk).
  assert (SU : exists sub, match subtype with
      | None => do s <- get_common_subtype E m2 ct; Ok (option_map (fun x => as_input (Some x)) s)
      | Some _ => Ok (option_map IStr subtype) end = Ok sub).
  { destruct subtype; [eauto|]. destruct (subtype_found E m2 ct keys Hi2 Sk2 (ex_intro _ t KT)) as [s ->]. cbn [rbind]. eauto. }
  destruct SU as [sub ->]. cbn [rbind].
  destruct (add_controller_accepted E m2 ct sub keys b Hi2 Sk2 Hk Hb) as (m3 & ck & EC); [rewrite HW; exact Hfree|exact Hlast|exact HS|].
  rewrite EC. cbn [rbind fst snd].
  apply add_controller_new in EC as (ci & t' & a & Et' & -> & B & O3 & _ & _ & _ & Nown); [|exact Hi2]. rewrite KT in Et'. injection Et' as <-.
  destruct B as (Bf & Bt & Bi & _ & Bo). pose proof (ids_app E (m_hw m2) ck ci Hi2 Bt Bi) as Hi3.
  assert (Hd3 : identified E (m_hw m2 ++ [(ck, ci)])).
  { intros k i Hin. apply in_app_or in Hin as [Hin|[Hin|[]]]; [rewrite HW in Hin; exact (Hd k i Hin)|]. injection Hin as <- <-. eauto. }
  assert (Hin3 : In (ck, ci) (m_hw m2 ++ [(ck, ci)])) by (apply in_or_app; right; now left).
  destruct (sort_more (map fst (m_hw m2)) ck keys Sk2) as [keys3 Sk3]; [destruct Bf as (z & -> & _); apply zdec_plain|].
  set (m4 := with_hw (m_hw m2 ++ [(ck, ci)]) m2).
  destruct (open_slot_ok E m4 ck ci keys3 Hi3 Hin3) as [z Hz]; [cbn [m4 m_hw with_hw]; rewrite map_app; exact Sk3|].
  pose proof (open_slot_spec E m4 ck ci z Hi3 Hd3 Hin3 Hz) as (Z0 & _ & Z2).
  assert (z = 0%Z) as ->.
  { destruct (Z.le_gt_cases z 0) as [X|X]; [lia|]. exfalso. destruct (Z2 0%Z) as (k & i & H1 & H2 & _); [lia|]. cbn [m4 m_hw with_hw] in H1.
    apply in_app_or in H1 as [H1|[H1|[]]].
    - apply Bt. rewrite HW in *. exact (ND k i ck H1 H2).
    - injection H1 as <- <-. destruct H2 as [[q Hq] _]. apply (Nown PARENT q (VStr ck)); [|apply PARENT_not_text|exact Hq].
      destruct (e_ver E); intros [Y|[Y|[Y|[Y|[]]]]]; discriminate Y. }
  apply (drive_done E m4 dt None (zdec 0) diskname ck ci ct oj (length (echildren (m_refs m))) fid); try assumption.
  - exists t. now split.
  - apply not_too_high; [exact Hk|]. intros y [[_ ->]|[_ ->]]; lia.
  - exists 0%Z. now split.
Qed.

(** If all addresses of controllers are used, too, the disk cannot be added. *)
Theorem add_disk_no_controller : forall agree E fuel guess m im dt file_id controller subtype diskname desc ct y,
  orderly E m -> attached E m -> sortable m ->
  dt = L "harddisk" \/ dt = L "cdrom" -> ct = match controller with Some c => c | None => guess dt end -> In ct kinds ->
  (forall f, ~ meant (e_ver E) m (Some (im_name im)) (Some (match file_id with Some s => s | None => im_name im end)) f) ->
  (forall k i, In (k, i) (m_hw m) -> is_a ct i -> full (m_hw m) ct k) -> agree (AddController ct) = true ->
  last_controller ct y -> (forall b, (0 <= b <= y)%Z -> controller_at (m_hw m) ct b) ->
  (dt = L "harddisk" -> exists cap, capacity_attrs fuel (e_ver E) (im_capacity im) = Ok cap) ->
  add_disk_worker agree E fuel guess m im dt file_id controller subtype None diskname desc = Err EValueTooHigh.
Proof.
  intros agree E fuel guess m im dt file_id controller subtype diskname desc ct y O A S Hdt Hct Hk N F NA Hy Hall HC.
  assert (Hi : ids_ok (e_ver E) (m_hw m)) by exact (o_ids _ _ O). pose proof (o_named _ _ O) as Hd.
  destruct (nothing_meant E m O A S _ _ N) as [S1 S2].
  assert (SE : search_for_elements E m (im_name im) file_id controller None = Ok (None, None, None, None)).
  { unfold search_for_elements. rewrite S1.
    replace (match file_id with Some _ => file_id | None => Some (im_name im) end) with (Some (match file_id with Some s => s | None => im_name im end))
      by (destruct file_id; reflexivity). rewrite S2.
    assert (S3 : search_from_controller E m controller None = Ok nothing) by (destruct controller; reflexivity). rewrite S3. reflexivity. }
  unfold add_disk_worker. cbv zeta. rewrite SE. cbn [rbind].
  assert (G : match controller with Some c => Ok c | None => guess_controller_type E m guess None dt end = Ok ct) by (rewrite Hct; destruct controller; reflexivity).
  rewrite G. cbn [rbind].
  assert (KT : exists t, dget str_eqb ct RES_MAP = Some t) by (destruct Hk as [<-|[<-|[<-|[]]]]; eexists; vm_compute; reflexivity). destruct KT as [t KT].
  pose proof S as [keys Sk].
  assert (FO : find_open_controller E m ct = Ok None).
  { pose proof (find_open_spec E m ct t Hi Hd KT) as FS. destruct (find_open_controller E m ct) as [[[k addr]|]|e]; [|reflexivity|exfalso; exact (FS keys Sk)].
    exfalso. destruct FS as (ks1 & ks2 & ca & z & (_ & _ & W) & _ & _ & _ & (X1 & X2 & _) & X5).
    destruct (proj1 (W k)) as (ci & Hci & Wc & _); [apply in_or_app; right; now left|]. specialize (Wc ct eq_refl).
    destruct (F k ci Hci Wc) as (y' & Ly & Hy'). apply X2, Hy'. split; [exact X1|now apply X5]. }
  rewrite FO. cbn [rbind]. unfold validate_elements, confirm_elements. cbv zeta. cbn [rbind]. unfold confirm_or_die. rewrite NA. cbn [rbind].
  assert (I1 : (match file_id with None => Ok file_id | Some _ => Ok file_id end : result (option str)) = Ok file_id) by (destruct file_id; reflexivity).
  rewrite I1. cbn [rbind]. rewrite I1. cbn [rbind].
  set (fid := match file_id with Some s => s | None => im_name im end).
  destruct (elements_done E fuel m im dt fid Hdt HC) as (m1 & m2 & oj & -> & EA & HW & HD1 & HD2). cbn [rbind fst snd]. rewrite EA. cbn [rbind fst snd].
  assert (Hi2 : ids_ok (e_ver E) (m_hw m2)) by (rewrite HW; exact Hi). assert (Sk2 : natural_sort (map fst (m_hw m2)) = Ok keys) by (rewrite HW; exact Sk).
  assert (SU : exists sub, match subtype with
      | None => do s <- get_common_subtype E m2 ct; Ok (option_map (fun x => as_input (Some x)) s)
      | Some _ => Ok (option_map IStr subtype) end = Ok sub).
  { destruct subtype; [eauto|]. destruct (subtype_found E m2 ct keys Hi2 Sk2 (ex_intro _ t KT)) as [s ->]. cbn [rbind]. eauto. }
  destruct SU as [sub ->]. cbn [rbind].
  rewrite (add_controller_refused E m2 ct sub y Hi2 (ex_intro _ keys Sk2) Hk Hy); [reflexivity|]. rewrite HW. exact Hall.
Qed.

(** With the consent of the user a new controller is made at the given address, too. *)
Theorem add_disk_at_new : forall agree E fuel guess m im dt file_id c subtype x y diskname,
  orderly E m -> attached E m -> sortable m -> dt = L "harddisk" \/ dt = L "cdrom" -> In c kinds ->
  ~ In ":"%char x -> ~ In ":"%char y ->
  (forall f, ~ meant (e_ver E) m (Some (im_name im)) (Some (match file_id with Some s => s | None => im_name im end)) f) ->
  (forall k i, In (k, i) (m_hw m) -> present E i None -> is_a c i -> ~ only_value (i_props i) ADDRESS (VStr x)) ->
  agree (AddController c) = true -> too_high c (L "scsi") (L "ide") 3 1 x = Ok false -> too_high c (L "scsi") (L "ide") 15 1 y = Ok false ->
  (dt = L "harddisk" -> exists cap, capacity_attrs fuel (e_ver E) (im_capacity im) = Ok cap) ->
  exists m' k, add_disk_worker agree E fuel guess m im dt file_id (Some c) subtype (Some (x ++ L ":" ++ y)) diskname None = Ok (m', k).
Proof.
  intros agree E fuel guess m im dt file_id c subtype x y diskname O A S Hdt Hk Nx Ny N Ux NA Hx Hy HC.
  assert (Hi : ids_ok (e_ver E) (m_hw m)) by exact (o_ids _ _ O). pose proof (o_named _ _ O) as Hd.
  destruct (nothing_meant E m O A S _ _ N) as [S1 S2].
  assert (KT : exists t, dget str_eqb c RES_MAP = Some t) by (destruct Hk as [<-|[<-|[<-|[]]]]; eexists; vm_compute; reflexivity). destruct KT as [t KT].
  assert (C1 : plain_conditions (e_ver E) [(ADDRESS, Some (VStr x))]) by (intros q [<-|[]]; apply ADDRESS_not_text).
  assert (WU : forall k i, In (k, i) (m_hw m) -> ~ wanted E (Some c) [(ADDRESS, Some (VStr x))] [None] i).
  { intros k i Hk' (W1 & W2 & W3). apply (Ux k i Hk'); [exact (W2 None (or_introl eq_refl))|exact (W1 c eq_refl)|exact (W3 _ (or_introl eq_refl))]. }
  assert (S3 : search_from_controller E m (Some c) (Some (x ++ L ":" ++ y)) = Ok nothing).
  { unfold search_from_controller. cbv zeta. rewrite (split_parts x y Nx Ny).
    destruct (sorted_find E m (Some c) [(ADDRESS, Some (VStr x))] Hi S C1) as [r Er].
    { intros t' Et'. injection Et' as <-. eauto. }
    { intros k i k' i' H1 H2 W1 W2. exfalso. exact (WU k i H1 W1). }
    rewrite Er. cbn [rbind]. destruct r as [k|]; [|reflexivity]. exfalso.
    pose proof (find_item_wanted E (m_hw m) (Some c) [(ADDRESS, Some (VStr x))] None Hi C1) as F. rewrite Er in F.
    destruct F as (i & H1 & H2 & _). exact (WU k i H1 H2). }
  assert (SE : search_for_elements E m (im_name im) file_id (Some c) (Some (x ++ L ":" ++ y)) = Ok (None, None, None, None)).
  { unfold search_for_elements. rewrite S1.
    replace (match file_id with Some _ => file_id | None => Some (im_name im) end) with (Some (match file_id with Some s => s | None => im_name im end))
      by (destruct file_id; reflexivity). rewrite S2, S3. reflexivity. }
  unfold add_disk_worker. cbv zeta. rewrite SE. cbn [rbind].
  unfold validate_elements, confirm_elements. cbv zeta. cbn [rbind]. unfold confirm_or_die. rewrite NA. cbn [rbind].
  assert (I1 : (match file_id with None => Ok file_id | Some _ => Ok file_id end : result (option str)) = Ok file_id) by (destruct file_id; reflexivity).
  rewrite I1. cbn [rbind]. rewrite I1. cbn [rbind].
  set (fid := match file_id with Some s => s | None => im_name im end).
  destruct (elements_done E fuel m im dt fid Hdt HC) as (m1 & m2 & oj & -> & EA & HW & HD1 & HD2). cbn [rbind fst snd]. rewrite EA. cbn [rbind fst snd].
  rewrite (split_parts x y Nx Ny). cbn [rbind fst snd]. destruct S as [keys Sk].
  assert (Hi2 : ids_ok (e_ver E) (m_hw m2)) by (rewrite HW; exact Hi). assert (Sk2 : natural_sort (map fst (m_hw m2)) = Ok keys) by (rewrite HW; exact Sk).
  assert (SU : exists sub, match subtype with
      | None => do s <- get_common_subtype E m2 c; Ok (option_map (fun x => as_input (Some x)) s)
      | Some _ => Ok (option_map IStr subtype) end = Ok sub).
  { destruct subtype; [eauto|]. destruct (subtype_found E m2 c keys Hi2 Sk2 (ex_intro _ t KT)) as [s ->]. cbn [rbind]. eauto. }
  destruct SU as [sub ->]. cbn [rbind].
  destruct (controller_made E m2 c sub (Some x) Hi2 Hk (names_plain E c Hk)) as (m3 & ck & EC); [intros; exists x; now split|].
  match goal with |- context [add_controller_device E m2 c sub ?o None] => replace (add_controller_device E m2 c sub o None) with (Ok (m3, ck)) by (symmetry; exact EC) end.
  cbn [rbind fst snd].
  apply add_controller_new in EC as (ci & t' & a & Et' & -> & B & O3 & _); [|exact Hi2]. rewrite KT in Et'. injection Et' as <-.
  destruct B as (Bf & Bt & Bi & _ & Bo). pose proof (ids_app E (m_hw m2) ck ci Hi2 Bt Bi) as Hi3.
  assert (Hd3 : identified E (m_hw m2 ++ [(ck, ci)])).
  { intros k i Hin. apply in_app_or in Hin as [Hin|[Hin|[]]]; [rewrite HW in Hin; exact (Hd k i Hin)|]. injection Hin as <- <-. eauto. }
  assert (Hin3 : In (ck, ci) (m_hw m2 ++ [(ck, ci)])) by (apply in_or_app; right; now left).
  set (m4 := with_hw (m_hw m2 ++ [(ck, ci)]) m2).
  apply (drive_done E m4 dt (Some y) y diskname ck ci c oj (length (echildren (m_refs m))) fid); try assumption; [|reflexivity].
  exists t. now split.
Qed.

Lemma low_enough : forall c n1 n2 x, In c kinds -> (c = L "scsi" -> exists z, py_int x = Some z /\ (z <= n1)%Z) ->
  (c = L "ide" -> exists z, py_int x = Some z /\ (z <= n2)%Z) -> too_high c (L "scsi") (L "ide") n1 n2 x = Ok false.
Proof.
  intros c n1 n2 x Hk L1 L2. unfold too_high, int_above. destruct Hk as [<-|[<-|[<-|[]]]]; [| |vm_compute; reflexivity].
  - destruct (L2 eq_refl) as (z & -> & Hz). cbn. f_equal. apply Z.ltb_ge. exact Hz.
  - destruct (L1 eq_refl) as (z & -> & Hz). cbn. f_equal. apply Z.ltb_ge. exact Hz.
Qed.

(** Without the consent of the user nothing is done at the address. *)
Theorem add_disk_at_refused : forall agree E fuel guess m im dt file_id c subtype x y diskname desc,
  orderly E m -> attached E m -> sortable m -> In c kinds ->
  ~ In ":"%char x -> ~ In ":"%char y ->
  (forall f, ~ meant (e_ver E) m (Some (im_name im)) (Some (match file_id with Some s => s | None => im_name im end)) f) ->
  (forall k i, In (k, i) (m_hw m) -> present E i None -> is_a c i -> ~ only_value (i_props i) ADDRESS (VStr x)) ->
  agree (AddController c) = false ->
  add_disk_worker agree E fuel guess m im dt file_id (Some c) subtype (Some (x ++ L ":" ++ y)) diskname desc = Err ESystemExit.
Proof.
  intros agree E fuel guess m im dt file_id c subtype x y diskname desc O A S Hk Nx Ny N Ux NA.
  assert (Hi : ids_ok (e_ver E) (m_hw m)) by exact (o_ids _ _ O). pose proof (o_named _ _ O) as Hd.
  destruct (nothing_meant E m O A S _ _ N) as [S1 S2].
  assert (KT : exists t, dget str_eqb c RES_MAP = Some t) by (destruct Hk as [<-|[<-|[<-|[]]]]; eexists; vm_compute; reflexivity). destruct KT as [t KT].
  assert (C1 : plain_conditions (e_ver E) [(ADDRESS, Some (VStr x))]) by (intros q [<-|[]]; apply ADDRESS_not_text).
  assert (WU : forall k i, In (k, i) (m_hw m) -> ~ wanted E (Some c) [(ADDRESS, Some (VStr x))] [None] i).
  { intros k i Hk' (W1 & W2 & W3). apply (Ux k i Hk'); [exact (W2 None (or_introl eq_refl))|exact (W1 c eq_refl)|exact (W3 _ (or_introl eq_refl))]. }
  assert (S3 : search_from_controller E m (Some c) (Some (x ++ L ":" ++ y)) = Ok nothing).
  { unfold search_from_controller. cbv zeta. rewrite (split_parts x y Nx Ny).
    destruct (sorted_find E m (Some c) [(ADDRESS, Some (VStr x))] Hi S C1) as [r Er].
    { intros t' Et'. injection Et' as <-. eauto. }
    { intros k i k' i' H1 H2 W1 W2. exfalso. exact (WU k i H1 W1). }
    rewrite Er. cbn [rbind]. destruct r as [k|]; [|reflexivity]. exfalso.
    pose proof (find_item_wanted E (m_hw m) (Some c) [(ADDRESS, Some (VStr x))] None Hi C1) as F. rewrite Er in F.
    destruct F as (i & H1 & H2 & _). exact (WU k i H1 H2). }
  assert (SE : search_for_elements E m (im_name im) file_id (Some c) (Some (x ++ L ":" ++ y)) = Ok (None, None, None, None)).
  { unfold search_for_elements. rewrite S1.
    replace (match file_id with Some _ => file_id | None => Some (im_name im) end) with (Some (match file_id with Some s => s | None => im_name im end))
      by (destruct file_id; reflexivity). rewrite S2, S3. reflexivity. }
  unfold add_disk_worker. cbv zeta. rewrite SE. cbn [rbind].
  unfold validate_elements, confirm_elements. cbv zeta. cbn [rbind]. unfold confirm_or_die. rewrite NA. reflexivity.
Qed.
