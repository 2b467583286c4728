(** Proofs about adding a disk to a virtual machine. *)
From Coq Require Import Lia Permutation Sorted ZArith.
From Verif Require Import PyBase PyBaseProofs PyDict PyDictProofs ValidationModel ValidationSpec ValidationProofs XmlModel NamesModel
  ItemModel ItemSpec PsetProofs ItemProofs ItemSetProofs ItemReachProofs
  ItemEffectProofs HardwareModel HardwareSpec HardwareProofs HardwareIdProofs CountSpec CountItemProofs CountProofs FindSpec FindProofs
  RawModel NetworkModel DriveModel DriveSpec SlotProofs DeviceProofs LinkProofs SearchProofs AddProofs.
Local Open Scope nat_scope.

(** ** The controller *)

Lemma hset_split : forall E h k i i' k' j, ids_ok (e_ver E) h -> In (k, i) h ->
  In (k', j) (hset k i' h) <-> (k' = k /\ j = i') \/ (k' <> k /\ In (k', j) h).
Proof. intros E h k i i' k' j [ND _] _. now apply hset_In. Qed.

Lemma app_split : forall (h : hw) k i k' j, ~ taken h k -> (In (k', j) (h ++ [(k, i)]) <-> (k' = k /\ j = i) \/ (k' <> k /\ In (k', j) h)).
Proof.
  intros h k i k' j Ht. rewrite in_app_iff. cbn [In]. split.
  - intros [H|[H|[]]]; [|left; split; congruence]. right. split; [|exact H]. intros ->. apply Ht. now exists j.
  - intros [[-> ->]|[_ H]]; [right; now left|now left].
Qed.

(** How the devices are afterwards: only the one with key [k] may have changed, and of
    that only the named properties; or it is new. *)
Definition touched (E : env) (names : list str) (k : str) (h h' : hw) : Prop :=
  ids_ok (e_ver E) h' /\ identified E h' /\
  (forall k' j, k' <> k -> (In (k', j) h' <-> In (k', j) h)) /\
  exists i', In (k, i') h' /\
    ((exists i, In (k, i) h /\ i_frozen i' = i_frozen i /\
        forall n q w, ~ In n names -> ~ text_property (e_ver E) n -> (own (i_props i') n q w <-> own (i_props i) n q w)) \/
     (~ taken h k /\ first_free h 1 k /\ i_frozen i' = None /\ own (i_props i') (INSTANCE_ID (e_ver E)) None (VStr k) /\
        forall n q w, ~ In n (INSTANCE_ID (e_ver E) :: RESOURCE_TYPE :: names) -> ~ text_property (e_ver E) n -> ~ own (i_props i') n q w)).

Lemma touched_new : forall E names h k i, ids_ok (e_ver E) h -> identified E h -> brand_new E h k i ->
  (forall n q w, ~ In n (INSTANCE_ID (e_ver E) :: RESOURCE_TYPE :: names) -> ~ text_property (e_ver E) n -> ~ own (i_props i) n q w) ->
  touched E names k h (h ++ [(k, i)]).
Proof.
  intros E names h k i Hi Hd (B1 & B2 & B3 & B4 & B5) Hn. split; [now apply ids_app|]. split.
  - intros k' j Hj. apply (app_split h k i k' j B2) in Hj as [[-> ->]|[_ Hj]]; [now exists None|now apply Hd].
  - split; [|exists i; split; [apply in_or_app; right; now left|right; now repeat split]].
    intros k' j Hk. rewrite (app_split h k i k' j B2). split; [intros [[F _]|[_ H]]; [contradiction|exact H]|intros H; right; now split].
Qed.
Lemma touched_old : forall E names h k i i', ids_ok (e_ver E) h -> identified E h -> In (k, i) h -> id_is (e_ver E) k i' ->
  i_frozen i' = i_frozen i -> ~ In (INSTANCE_ID (e_ver E)) names ->
  (forall n q w, ~ In n names -> ~ text_property (e_ver E) n -> (own (i_props i') n q w <-> own (i_props i) n q w)) -> touched E names k h (hset k i' h).
Proof.
  intros E names h k i i' Hi Hd Hin I' Hf Hid Hn. split; [now apply ids_hset|]. split; [|split].
  - intros k' j Hj. apply (hset_In h k i' k' j (proj1 Hi)) in Hj as [[-> ->]|[_ Hj]]; [|now apply Hd].
    destruct (Hd k i Hin) as [p Hp]. exists p. apply Hn; [exact Hid|apply IID_not_text|exact Hp].
  - intros k' j Hk. rewrite (hset_In h k i' k' j (proj1 Hi)). split; [intros [[F _]|[_ H]]; [contradiction|exact H]|intros H; right; now split].
  - exists i'. split; [apply (hset_In h k i' k i' (proj1 Hi)); now left|]. left. exists i. split; [exact Hin|]. split; [exact Hf|exact Hn].
Qed.

Theorem controller_stage : forall E m ct sub address ctrl m' ck, ids_ok (e_ver E) (m_hw m) -> identified E (m_hw m) ->
  (forall k, ctrl = Some k -> exists i, In (k, i) (m_hw m)) ->
  add_controller_device E m ct sub address ctrl = Ok (m', ck) ->
  m_refs m' = m_refs m /\ m_disks m' = m_disks m /\ m_sources m' = m_sources m /\
  touched E [ADDRESS; RESOURCE_SUB_TYPE] ck (m_hw m) (m_hw m') /\
  match ctrl with
  | Some k => ck = k /\ forall i i', In (ck, i) (m_hw m) -> In (ck, i') (m_hw m') ->
      forall n q w, n <> RESOURCE_SUB_TYPE -> ~ text_property (e_ver E) n -> (own (i_props i') n q w <-> own (i_props i) n q w)
  | None => exists i a, In (ck, i) (m_hw m') /\ ~ taken (m_hw m) ck /\ is_a ct i /\
      (a <> [] -> only_value (i_props i) ADDRESS (VStr a)) /\
      (match address with Some a' => a = a' | None => exists z, a = zdec z /\ lowest_unused (controller_at (m_hw m) ct) z end) /\
      (forall z, last_controller ct z -> exists x, py_int a = Some x /\ (x <= z)%Z)
  end.
Proof.
  intros E m ct sub address ctrl m' ck Hi Hd Hk H. destruct ctrl as [k|].
  - apply add_controller_old in H as [-> [->|(i & i' & Hin & -> & I' & F & S)]]; [| |exact Hi].
    + do 3 (split; [reflexivity|]). split.
      * destruct (Hk k eq_refl) as [i Hin]. split; [exact Hi|]. split; [exact Hd|]. split; [reflexivity|].
        exists i. split; [exact Hin|]. left. exists i. split; [exact Hin|]. split; [reflexivity|]. intros n q w _ _. reflexivity.
      * split; [reflexivity|]. intros i i' H1 H2. assert (i' = i) as ->; [|reflexivity].
        apply (hitem_In _ _ _ (proj1 Hi)) in H1. apply (hitem_In _ _ _ (proj1 Hi)) in H2. congruence.
    + do 3 (split; [reflexivity|]). cbn [m_hw with_hw]. split.
      * apply (touched_old E _ _ k i i'); try assumption.
        -- destruct (e_ver E); intros [X|[X|[]]]; discriminate X.
        -- intros n q w Hn _. apply S. intros ->. apply Hn. right. now left.
      * split; [reflexivity|]. intros j j' H1 H2 n q w Hn _.
        assert (j = i) as -> by (apply (hitem_In _ _ _ (proj1 Hi)) in H1; apply (hitem_In _ _ _ (proj1 Hi)) in Hin; congruence).
        apply (hset_In _ k i' k j' (proj1 Hi)) in H2 as [[_ ->]|[F' _]]; [now apply S|contradiction].
  - apply add_controller_new in H as (i & t & a & Et & -> & B & Hrt & Ha & Hadr & HL & Hn); [|exact Hi].
    do 3 (split; [reflexivity|]). cbn [m_hw with_hw]. split; [now apply touched_new|].
    exists i, a. split; [apply in_or_app; right; now left|]. split; [apply B|]. split; [now exists t|]. split; [exact Ha|]. split; [exact Hadr|exact HL].
Qed.

(** ** The drive *)

Lemma NoDup_drive_names : forall E (nm ds : option str), NoDup (map fst
    ([(RESOURCE_TYPE, IStr []); (HOST_RESOURCE, IStr [])] ++ (match nm with Some n => [(ELEMENT_NAME (e_ver E), IStr n)] | None => [] end)
     ++ (match ds with Some d => [(ITEM_DESCRIPTION, IStr d)] | None => [] end))).
Proof.
  intros E nm ds. destruct nm, ds; cbn; destruct (e_ver E); repeat constructor; cbn; intuition discriminate.
Qed.

Theorem drive_stage : forall E m dt address name desc oj fj ck ci drive m' k, ids_ok (e_ver E) (m_hw m) -> identified E (m_hw m) ->
  In (ck, ci) (m_hw m) ->
  add_disk_device E m dt address name desc oj fj ck drive = Ok (m', k) ->
  m_refs m' = m_refs m /\ m_disks m' = m_disks m /\ m_sources m' = m_sources m /\
  touched E [RESOURCE_TYPE; HOST_RESOURCE; PARENT; ADDRESS_ON_PARENT] k (m_hw m) (m_hw m') /\
  exists i t host, In (k, i) (m_hw m') /\ dget str_eqb dt RES_MAP = Some t /\ only_value (i_props i) RESOURCE_TYPE (VStr t) /\
    only_value (i_props i) HOST_RESOURCE (VStr host) /\
    (dt = L "harddisk" -> exists j id, oj = Some j /\ (do sec <- the_disks m; attr_at sec j (DISK_ID (e_ver E))) = Ok (Some id) /\ host = DISK_REF (e_ver E) ++ id) /\
    (dt <> L "harddisk" -> exists id, attr_at (m_refs m) fj (FILE_ID (e_ver E)) = Ok (Some id) /\ host = FILE_REF (e_ver E) ++ id) /\
    match drive with
    | Some k0 => k = k0 /\ exists i0, In (k, i0) (m_hw m) /\ i_frozen i = i_frozen i0 /\
        forall n q w, n <> RESOURCE_TYPE -> n <> HOST_RESOURCE -> ~ text_property (e_ver E) n -> (own (i_props i) n q w <-> own (i_props i0) n q w)
    | None => ~ taken (m_hw m) k /\ only_value (i_props i) PARENT (VStr ck) /\
        exists a, (a <> [] -> only_value (i_props i) ADDRESS_ON_PARENT (VStr a)) /\
          (match address with Some a' => a = a' | None => exists z, a = zdec z /\ lowest_unused (occupied (m_hw m) ck) z end) /\
          (only_value (i_props ci) RESOURCE_TYPE (VStr (L "6")) -> exists x, py_int a = Some x /\ (x <= 15)%Z) /\
          (only_value (i_props ci) RESOURCE_TYPE (VStr (L "5")) -> exists x, py_int a = Some x /\ (x <= 1)%Z)
    end.
Proof.
  intros E m dt address name desc oj fj ck ci drive m' k Hi Hd Hc H. unfold add_disk_device in H. set (v := e_ver E) in *.
  match type of H with rbind ?r _ = _ => destruct r as [[[m1 k1] nm]|] eqn:Em; [|discriminate] end. cbn [rbind] in H.
  (* what happened before the last properties are set *)
  assert (S1 : m_refs m1 = m_refs m /\ m_disks m1 = m_disks m /\ m_sources m1 = m_sources m /\ ids_ok v (m_hw m1) /\
    match drive with
    | Some k0 => m1 = m /\ k1 = k0
    | None => exists i t a, m_hw m1 = m_hw m ++ [(k1, i)] /\ brand_new E (m_hw m) k1 i /\ only_value (i_props i) PARENT (VStr ck) /\
        (a <> [] -> only_value (i_props i) ADDRESS_ON_PARENT (VStr a)) /\
        (match address with Some a' => a = a' | None => exists z, a = zdec z /\ lowest_unused (occupied (m_hw m) ck) z end) /\
        (only_value (i_props ci) RESOURCE_TYPE (VStr (L "6")) -> exists x, py_int a = Some x /\ (x <= 15)%Z) /\
        (only_value (i_props ci) RESOURCE_TYPE (VStr (L "5")) -> exists x, py_int a = Some x /\ (x <= 1)%Z) /\
        only_value (i_props i) RESOURCE_TYPE (VStr t) /\
        (forall n q w, ~ In n [INSTANCE_ID (e_ver E); RESOURCE_TYPE; PARENT; ADDRESS_ON_PARENT] -> ~ text_property (e_ver E) n -> ~ own (i_props i) n q w)
    end).
  { destruct drive as [k0|].
    - injection Em as <- <- _. do 3 (split; [reflexivity|]). split; [exact Hi|]. now split.
    - destruct (create_disk_device E m dt address name ck) as [[[m0 k0] n0]|] eqn:Ec; [|discriminate]. cbn [rbind fst snd] in Em.
      injection Em as <- <- _. apply (create_spec E m dt address name ck ci) in Ec as (i & t & a & Et & -> & B & T1 & T2 & T3 & T4 & T5 & T6 & T7); try assumption.
      do 3 (split; [reflexivity|]). split; [cbn [m_hw with_hw]; apply ids_app; [exact Hi|apply B|apply B]|].
      exists i, t, a. repeat (split; [first [reflexivity|assumption]|]). exact T7. }
  destruct S1 as (R1 & R2 & R3 & Hi1 & S1).
  destruct (res_map dt) as [t|] eqn:Et; [|discriminate]. cbn [rbind] in H. pose proof (res_map_nonempty _ _ Et) as Tne. apply res_map_dget in Et.
  match type of H with rbind ?r _ = _ => destruct r as [host|] eqn:Eh; [|discriminate] end. cbn [rbind] in H.
  match type of H with rbind ?r _ = _ => destruct r as [m2|] eqn:E2; [|discriminate] end. cbn [rbind] in H. injection H as <- <-.
  assert (HH : (dt = L "harddisk" -> exists j id, oj = Some j /\ (do sec <- the_disks m; attr_at sec j (DISK_ID v)) = Ok (Some id) /\ host = DISK_REF v ++ id) /\
    (dt <> L "harddisk" -> exists id, attr_at (m_refs m) fj (FILE_ID v) = Ok (Some id) /\ host = FILE_REF v ++ id) /\ host <> []).
  { unfold the_disks in *. rewrite R1, R2 in Eh. destruct (str_eqb dt (L "harddisk")) eqn:Edt.
    - apply str_eqb_eq in Edt. destruct oj as [j|]; [|discriminate].
      destruct (m_disks m) as [sec|]; [|discriminate]. cbn [rbind] in *. destruct (attr_at sec j (DISK_ID v)) as [[id|]|] eqn:Eat; try discriminate. cbn in Eh. injection Eh as <-.
      split; [intros _; exists j, id; split; [reflexivity|split; [exact Eat|reflexivity]]|]. split; [intros F; contradiction|]. unfold v. destruct (e_ver E); discriminate.
    - apply str_eqb_neq in Edt. destruct (attr_at (m_refs m) fj (FILE_ID v)) as [[id|]|] eqn:Eat; try discriminate. cbn in Eh. injection Eh as <-.
      split; [intros F; contradiction|]. split; [intros _; exists id; split; [reflexivity|reflexivity]|]. unfold v. destruct (e_ver E); discriminate. }
  destruct HH as (HH1 & HH2 & Hne).
  pose (l := [(RESOURCE_TYPE, IStr t); (HOST_RESOURCE, IStr host)]
     ++ (match nm with Some n => [(ELEMENT_NAME v, IStr n)] | None => [] end)
     ++ (match desc with Some d => [(ITEM_DESCRIPTION, IStr d)] | None => [] end)).
  fold l in E2.
  assert (ND : NoDup (map fst l)).
  { pose proof (NoDup_drive_names E nm desc) as N. unfold l. unfold v. destruct nm, desc; exact N. }
  assert (NI : forall n, n <> RESOURCE_TYPE -> n <> HOST_RESOURCE -> ~ text_property (e_ver E) n -> ~ In n (map fst l)).
  { intros n N1 N2 N3 F. unfold l in F. rewrite !map_app, !in_app_iff in F. destruct F as [[F|[F|[]]]|[F|F]]; [now apply N1|now apply N2| |].
    - destruct nm; [|destruct F]. destruct F as [F|[]]. apply N3. left. now symmetry.
    - destruct desc; [|destruct F]. destruct F as [F|[]]. apply N3. right. now symmetry. }
  assert (IDN : ~ In (INSTANCE_ID (e_ver E)) (map fst l)).
  { apply NI; [destruct (e_ver E); discriminate|destruct (e_ver E); discriminate|apply IID_not_text]. }
  apply set_props_spec in E2 as (i0 & i' & Hin & -> & I' & F & S & V); [|exact Hi1|exact IDN].
  cbn [m_refs m_disks m_sources m_hw with_hw]. split; [exact R1|]. split; [exact R2|]. split; [exact R3|].
  assert (VT : only_value (i_props i') RESOURCE_TYPE (VStr t)).
  { destruct (nonempty_truthy E RESOURCE_TYPE t) as [T1 T2]; [discriminate|exact Tne|]. rewrite <- T1.
    apply (V RESOURCE_TYPE (IStr t)); [now left|exact ND|apply RT_not_text|exact T2]. }
  assert (VH : only_value (i_props i') HOST_RESOURCE (VStr host)).
  { destruct (nonempty_truthy E HOST_RESOURCE host) as [T1 T2]; [discriminate|exact Hne|]. rewrite <- T1.
    apply (V HOST_RESOURCE (IStr host)); [right; now left|exact ND|apply HR_not_text|exact T2]. }
  assert (S' : forall n q w, n <> RESOURCE_TYPE -> n <> HOST_RESOURCE -> ~ text_property (e_ver E) n -> (own (i_props i') n q w <-> own (i_props i0) n q w)).
  { intros n q w N1 N2 N3. apply S. now apply NI. }
  assert (OV : forall n w, n <> RESOURCE_TYPE -> n <> HOST_RESOURCE -> ~ text_property (e_ver E) n -> only_value (i_props i0) n w -> only_value (i_props i') n w).
  { intros n w N1 N2 N3 [[p Hp] Ho]. split; [exists p; now apply S'|]. intros q u Hu. apply S' in Hu; [now apply (Ho q)|assumption..]. }
  destruct drive as [k0|].
  - destruct S1 as [-> ->]. split.
    + apply (touched_old E _ (m_hw m) k0 i0 i'); try assumption.
      * destruct (e_ver E); intros [X|[X|[X|[X|[]]]]]; discriminate X.
      * intros n q w N1 N2. apply S'; [intros ->; apply N1; now left|intros ->; apply N1; right; now left|exact N2].
    + exists i', t, host. split; [apply (hset_In _ k0 i' k0 i' (proj1 Hi)); now left|]. do 5 (split; [assumption|]).
      split; [reflexivity|]. exists i0. split; [exact Hin|]. split; [exact F|exact S'].
  - destruct S1 as (j & t' & a & Ehw & B & P1 & P2 & P3 & P4 & P5 & P6 & P7).
    assert (i0 = j) as ->.
    { rewrite Ehw in Hin. apply (app_split (m_hw m) k1 j k1 i0) in Hin as [[_ ->]|[X _]]; [reflexivity|contradiction|apply B]. }
    assert (Eset : hset k1 i' (m_hw m1) = m_hw m ++ [(k1, i')]) by (rewrite Ehw; apply hset_last; apply B).
    rewrite Eset. split.
    + apply touched_new; try assumption.
      * destruct B as (B1 & B2 & B3 & B4 & B5). split; [exact B1|]. split; [exact B2|]. split; [exact I'|]. split; [congruence|].
        apply S'; [destruct (e_ver E); discriminate|destruct (e_ver E); discriminate|apply IID_not_text|exact B5].
      * intros n q w N1 N2 X. cbn [In] in N1. apply S' in X; [|intros ->; tauto|intros ->; tauto|exact N2].
        apply P7 in X; [exact X| |exact N2]. cbn [In]. tauto.
    + exists i', t, host. split; [apply in_or_app; right; now left|]. do 5 (split; [assumption|]).
      split; [apply B|]. split; [apply OV; [discriminate..|apply PARENT_not_text|exact P1]|].
      exists a. split; [intros Ha; apply OV; [discriminate..|apply AOP_not_text|now apply P2]|]. split; [exact P3|]. split; [exact P4|exact P5].
Qed.

(** ** Both together *)

Lemma touched_back : forall E names k h h' k' j, ids_ok (e_ver E) h -> touched E names k h h' -> In (k', j) h' ->
  (exists j0, In (k', j0) h /\ i_frozen j = i_frozen j0 /\
     forall n q w, ~ In n names -> ~ text_property (e_ver E) n -> (own (i_props j) n q w <-> own (i_props j0) n q w)) \/
  (k' = k /\ ~ taken h k /\ i_frozen j = None /\ own (i_props j) (INSTANCE_ID (e_ver E)) None (VStr k) /\
     forall n q w, ~ In n (INSTANCE_ID (e_ver E) :: RESOURCE_TYPE :: names) -> ~ text_property (e_ver E) n -> ~ own (i_props j) n q w).
Proof.
  intros E names k h h' k' j Hi (T1 & T2 & T3 & i' & Hi' & T4) Hj. destruct (str_eq_dec k' k) as [->|N].
  - assert (j = i') as ->. { apply (hitem_In _ _ _ (proj1 T1)) in Hj. apply (hitem_In _ _ _ (proj1 T1)) in Hi'. congruence. }
    destruct T4 as [(i & A & B & C)|(A & B & C & D & F)]; [left; exists i; now split|right]. now repeat (split; [assumption || reflexivity|]).
  - left. exists j. split; [now apply T3|]. split; [reflexivity|]. reflexivity.
Qed.

Lemma present_same : forall E i j, i_frozen j = i_frozen i ->
  (forall q w, own (i_props j) (INSTANCE_ID (e_ver E)) q w <-> own (i_props i) (INSTANCE_ID (e_ver E)) q w) ->
  forall p, present E i p -> present E j p.
Proof.
  intros E i j Hf Ho p. unfold present, config_of. rewrite Hf. intros [[v H]|[[v H] R]]; [left|right; split; [|exact R]]; exists v; now apply Ho.
Qed.

Lemma die_opt : forall a b, match_or_die opt_eqb a b = Ok tt -> a = b.
Proof. intros a b H. unfold match_or_die in H. destruct (opt_eqb a b) eqn:E; [now apply opt_eqb_eq|discriminate]. Qed.

Lemma validate_spec : forall E m file disk drive ctrl file_id ct,
  (forall j, file = Some j -> exists x, file_at (e_ver E) m j x) -> (forall j, disk = Some j -> exists y, disk_at (e_ver E) m j y) ->
  validate_elements E m file disk drive ctrl file_id ct = Ok tt ->
  (forall j x s, file = Some j -> file_at (e_ver E) m j x -> file_id = Some s -> get_attr x (FILE_ID (e_ver E)) = Some s) /\
  (forall j j' x y, file = Some j -> disk = Some j' -> file_at (e_ver E) m j x -> disk_at (e_ver E) m j' y ->
     get_attr y (DISK_FILE_REF (e_ver E)) = get_attr x (FILE_ID (e_ver E))) /\
  (forall j y s, disk = Some j -> disk_at (e_ver E) m j y -> file_id = Some s -> get_attr y (DISK_FILE_REF (e_ver E)) = Some s) /\
  (forall k ck a b, drive = Some k -> ctrl = Some ck -> value_of E m k PARENT = Ok a -> value_of E m ck (INSTANCE_ID (e_ver E)) = Ok b -> a = b) /\
  (forall ck, ctrl = Some ck -> hardware_type E m ck = Ok ct).
Proof.
  intros E m file disk drive ctrl file_id ct Hf Hd H. unfold validate_elements in H. set (v := e_ver E) in *.
  match type of H with rbind ?r _ = _ => destruct r as [fid|] eqn:E1; [|discriminate] end. cbn [rbind] in H.
  match type of H with rbind ?r _ = _ => destruct r as [ref|] eqn:E2; [|discriminate] end. cbn [rbind] in H.
  match type of H with rbind ?r _ = _ => destruct r as [[]|] eqn:E3; [|discriminate] end. cbn [rbind] in H.
  match type of H with rbind ?r _ = _ => destruct r as [[]|] eqn:E4; [|discriminate] end. cbn [rbind] in H.
  match type of H with rbind ?r _ = _ => destruct r as [[]|] eqn:E5; [|discriminate] end. cbn [rbind] in H.
  match type of H with rbind ?r _ = _ => destruct r as [[]|] eqn:E6; [|discriminate] end. cbn [rbind] in H.
  assert (F1 : forall j x, file = Some j -> file_at v m j x -> get_attr x (FILE_ID v) = fid).
  { intros j x -> Hx. rewrite (attr_file _ _ _ _ _ Hx) in E1. congruence. }
  assert (F2 : forall j y, disk = Some j -> disk_at v m j y -> get_attr y (DISK_FILE_REF v) = ref).
  { intros j y -> Hy. rewrite (attr_disk _ _ _ _ _ Hy) in E2. congruence. }
  split; [|split; [|split; [|split]]].
  - intros j x s Hj Hx Hs. rewrite (F1 j x Hj Hx). subst file file_id. now apply die_opt in E3.
  - intros j j' x y Hj Hj' Hx Hy. rewrite (F1 j x Hj Hx), (F2 j' y Hj' Hy). subst file disk. now apply die_opt in E4.
  - intros j y s Hj Hy Hs. rewrite (F2 j y Hj Hy). subst disk file_id. now apply die_opt in E5.
  - intros k ck a b -> -> Ha Hb. unfold check_sanity in E6. rewrite Ha in E6. cbn [rbind] in E6. fold v in E6. rewrite Hb in E6. cbn [rbind] in E6.
    unfold match_or_die in E6. destruct (opt_value_eqb a b) eqn:Eo; [|discriminate]. unfold opt_value_eqb in Eo.
    destruct a as [a|], b as [b|]; try discriminate; [|reflexivity]. f_equal. now apply value_eqb_eq.
  - intros ck ->. destruct (hardware_type E m ck) as [t|]; [|discriminate]. cbn [rbind] in H. unfold match_or_die in H.
    destruct (str_eqb t ct) eqn:Et; [|discriminate]. apply str_eqb_eq in Et as ->. reflexivity.
Qed.

Lemma ok_inj : forall (A : Type) (a b : A), Ok a = Ok b -> a = b.
Proof. intros A a b H. now injection H. Qed.

Lemma hardware_type_is_a : forall E m k i ct t, ids_ok (e_ver E) (m_hw m) -> In (k, i) (m_hw m) ->
  dget str_eqb ct RES_MAP = Some t -> hardware_type E m k = Ok ct -> is_a ct i.
Proof.
  intros E m k i ct t Hi Hin Ht H. unfold hardware_type in H.
  destruct (value_of_only E m k i RESOURCE_TYPE Hi Hin (RT_not_text E)) as (o & Eo & Ho). rewrite Eo in H. cbn [rbind] in H. apply ok_inj in H.
  assert (NU : forall s, ct <> L "unknown (" ++ s).
  { intros s ->. apply (dget_In str_eqb str_eqb_eq) in Ht.
    assert (F : forallb (fun kv : str * str => negb (starts_with (L "unknown (") (fst kv))) RES_MAP = true) by (vm_compute; reflexivity).
    rewrite forallb_forall in F. specialize (F _ Ht). cbn [fst] in F. now rewrite starts_with_app in F. }
  destruct o as [[s|l]|]; [|exfalso; eapply NU; symmetry; exact H|exfalso; eapply NU; symmetry; exact H].
  destruct (res_name s RES_MAP) as [n|] eqn:En; [|exfalso; eapply NU; symmetry; exact H]. subst n.
  exists s. split; [|now apply Ho].
  clear - En. assert (G : forall l, NoDup (map fst l) -> res_name s l = Some ct -> dget str_eqb ct l = Some s).
  { induction l as [|[a b] l IH]; intros ND Hr; [discriminate|]. cbn in Hr. inversion ND as [|? ? N1 N2]; subst. cbn [dget].
    destruct (str_eqb s b) eqn:Eb.
    - injection Hr as ->. apply str_eqb_eq in Eb as ->. now rewrite str_eqb_refl.
    - specialize (IH N2 Hr). destruct (str_eqb ct a) eqn:Ea; [|exact IH]. apply str_eqb_eq in Ea as ->.
      exfalso. apply N1. apply (dget_In str_eqb str_eqb_eq) in IH. now apply (in_map fst) in IH. }
  apply G; [|exact En]. cbn. repeat constructor; cbn; intuition discriminate.
Qed.
