(** Proofs about the check of the hardware (ValidateHwModel). *)
From Coq Require Import Permutation Lia.
From Verif Require Import PyBase PyBaseProofs PyDict PyDictProofs UnitsModel UnitsProofs RawProofs ValidationModel
  PlatformModel PlatformSpec PlatformProofs XmlModel NamesModel ItemModel ItemSpec HardwareModel CountSpec FindSpec
  HardwareSpec HardwareIdProofs ItemProofs ItemReachProofs HardwareProofs CountProofs FindProofs ValidateHwModel ValidateHwSpec.

(** ** A sequence of checks *)
Inductive ev : Type :=
| Num (q : profile) (x : hardware) (n : Z)
| Types (q : profile) (l : list str).
Definition run (p : platform) (s : checked) (e : ev) : result checked :=
  match e with Num q x n => check_number p q x n s | Types q l => check_types p q l s end.
Definition fine (p : platform) (c : cache) (e : ev) : Prop :=
  match e with
  | Num _ x n => acceptable p c x n
  | Types _ l => forall t, In t l -> In t (supported_nic_types p)
  end.
Definition warning (e : ev) : profile * option hardware :=
  match e with Num q x _ => (q, Some x) | Types q _ => (q, None) end.
Definition remembered (e : ev) (c : cache) : cache :=
  match e with Num _ x n => (x, n) :: c | Types _ _ => c end.
(** Two checks of the same thing. *)
Definition alike (a b : ev) : Prop :=
  match a, b with
  | Num _ x n, Num _ y m => x = y /\ n = m
  | Types _ l, Types _ m => l = m
  | _, _ => False
  end.

Lemma low_dec : forall p x n, too_low p x n \/ ~ too_low p x n.
Proof.
  intros p x n. rewrite limits_low. destruct (fst (hardware_limits p x)) as [m|].
  - destruct (Z_lt_dec n m) as [H|H]; [left; now exists m|right; intros (k & [= <-] & K); lia].
  - right. now intros (k & [=] & K).
Qed.
Lemma high_dec : forall p x n, too_high p x n \/ ~ too_high p x n.
Proof.
  intros p x n. rewrite limits_high. destruct (snd (hardware_limits p x)) as [m|].
  - destruct (Z_lt_dec m n) as [H|H]; [left; now exists m|right; intros (k & [= <-] & K); lia].
  - right. now intros (k & [=] & K).
Qed.
Lemma bad_dec : forall p x n, bad_cpu_count p x n \/ ~ bad_cpu_count p x n.
Proof. intros p x n. destruct (bad_cpu_spec p x n) as [[_ H]|[_ H]]; tauto. Qed.
Lemma hz_dec : forall (a b : hardware * Z), {a = b} + {a <> b}.
Proof. intros a b. repeat decide equality. Qed.
Lemma fine_dec : forall p c e, fine p c e \/ ~ fine p c e.
Proof.
  intros p c [q x n|q l]; cbn [fine].
  - unfold acceptable. destruct (In_dec hz_dec (x, n) c), (low_dec p x n), (high_dec p x n), (bad_dec p x n); tauto.
  - pose proof (validate_nic_types_spec p l) as [V1 V2]. destruct (validate_nic_types p l) as [[]|e].
    + left. now apply V1.
    + right. destruct (V2 e eq_refl) as (_ & t & Ht & Hn). intros F. exact (Hn (F t Ht)).
Qed.

Lemma validate_seen : forall p x n c e, In e (snd (PlatformModel.validate p x n c)) <-> e = (x, n) \/ In e c.
Proof.
  intros p x n c e. unfold PlatformModel.validate, base_validate. destruct (cached x n c) eqn:Hc.
  - apply cached_In in Hc. cbn [snd]. split; [now right|]. intros [->|H]; assumption.
  - destruct (hardware_limits p x) as [lo hi]. destruct (validate_int (AInt n) lo hi); cbn [snd In];
      (split; [intros [H|H]; [left; now symmetry|now right]|intros [H|H]; [left; now symmetry|now right]]).
Qed.
Lemma validate_result : forall p x n c,
  (acceptable p c x n -> fst (PlatformModel.validate p x n c) = Ok tt) /\
  (~ acceptable p c x n -> exists e, fst (PlatformModel.validate p x n c) = Err e /\ is_value_unsupported e = true).
Proof.
  intros p x n c. unfold acceptable. destruct (In_dec hz_dec (x, n) c) as [Hc|Hc].
  - destruct (validate_again p x n c Hc) as [A B]. split; [intros [_ H]; now apply A|].
    intros H. exists EValueUnsupported. split; [|reflexivity]. apply B.
    destruct (bad_dec p x n); tauto.
  - destruct (validate_new p x n c Hc) as (A & B & C & D). split; [intros [[H|[H1 H2]] H3]; [contradiction|]; now apply D|].
    intros H. destruct (low_dec p x n) as [Hl|Hl]; [exists EValueTooLow; split; [now apply A|reflexivity]|].
    destruct (high_dec p x n) as [Hh|Hh]; [exists EValueTooHigh; split; [now apply B|reflexivity]|].
    exists EValueUnsupported. split; [|reflexivity]. apply C. destruct (bad_dec p x n); tauto.
Qed.

Lemma run_one : forall p s e, exists s', run p s e = Ok s' /\
  (forall y, In y (k_seen s') <-> In y (remembered e (k_seen s))) /\
  (fine p (k_seen s) e -> k_ok s' = k_ok s /\ k_warn s' = k_warn s) /\
  (~ fine p (k_seen s) e -> k_ok s' = false /\ k_warn s' = k_warn s ++ [warning e]).
Proof.
  intros p s [q x n|q l]; cbn [run fine warning remembered].
  - unfold check_number. pose proof (validate_seen p x n (k_seen s)) as S. destruct (validate_result p x n (k_seen s)) as [V1 V2].
    destruct (PlatformModel.validate p x n (k_seen s)) as [r c]. cbn [fst snd] in *. unfold noted.
    destruct (fine_dec p (k_seen s) (Num q x n)) as [F|F]; cbn [fine] in F.
    + rewrite (V1 F). eexists. split; [reflexivity|]. cbn [k_seen k_ok k_warn].
      split; [|split; [now intros _|contradiction]]. intros y. rewrite S. cbn [In]. intuition.
    + destruct (V2 F) as (e & -> & ->). eexists. split; [reflexivity|]. cbn [k_seen k_ok k_warn].
      split; [|split; [contradiction|now intros _]]. intros y. rewrite S. cbn [In]. intuition.
  - unfold check_types, noted. pose proof (validate_nic_types_spec p l) as [V1 V2].
    destruct (validate_nic_types p l) as [[]|e].
    + eexists. split; [reflexivity|]. cbn [k_seen k_ok k_warn]. split; [now intros y|]. split; [now intros _|].
      intros F. exfalso. apply F. now apply V1.
    + destruct (V2 e eq_refl) as (-> & t & Ht & Hn). cbn [is_value_unsupported]. eexists. split; [reflexivity|].
      cbn [k_seen k_ok k_warn]. split; [now intros y|]. split; [|now intros _]. intros F. exfalso. exact (Hn (F t Ht)).
Qed.

Lemma fine_more : forall p c c' a b, (forall y, In y c' <-> In y (remembered a c)) ->
  (fine p c b -> fine p c' b) /\ (fine p c' b -> fine p c b \/ (alike a b /\ ~ fine p c b)).
Proof.
  intros p c c' a b H. destruct b as [q x n|q l]; cbn [fine].
  - unfold acceptable. rewrite H. destruct a as [q' y m|q' l']; cbn [remembered In alike].
    + split; [tauto|]. intros [[[E|E]|E] B]; [|tauto|tauto]. injection E as -> ->.
      destruct (fine_dec p c (Num q x n)) as [F|F]; cbn [fine] in F; unfold acceptable in F; tauto.
    + tauto.
  - tauto.
Qed.
Lemma alike_fine : forall p c a b, alike a b -> fine p c a -> fine p c b.
Proof. intros p c [q x n|q l] [q' y m|q' m]; cbn [alike fine]; try tauto; [now intros [-> ->]|now intros ->]. Qed.
Lemma alike_refl : forall a, alike a a.
Proof. intros [q x n|q l]; cbn [alike]; auto. Qed.
Lemma alike_trans : forall a b c, alike a b -> alike b c -> alike a c.
Proof. intros [? ? ?|? ?] [? ? ?|? ?] [? ? ?|? ?]; cbn [alike]; try tauto; try (intros [-> ->] [-> ->]; auto). now intros -> ->. Qed.

Lemma run_all : forall p evs s, exists s', fold_result (run p) evs s = Ok s' /\
  (k_ok s' = true <-> k_ok s = true /\ forall e, In e evs -> fine p (k_seen s) e) /\
  (forall w, In w (k_warn s') -> In w (k_warn s) \/ exists e, In e evs /\ w = warning e /\ ~ fine p (k_seen s) e) /\
  incl (k_warn s) (k_warn s') /\
  (forall e, In e evs -> ~ fine p (k_seen s) e -> exists e', In e' evs /\ alike e' e /\ In (warning e') (k_warn s')) /\
  (forall y, In y (k_seen s') <-> In y (k_seen s) \/ exists q, In (Num q (fst y) (snd y)) evs).
Proof.
  intros p evs. induction evs as [|e evs IH]; intros s; cbn [fold_result].
  - exists s. split; [reflexivity|]. split; [split; [intros H; split; [exact H|intros e []]|tauto]|].
    split; [now left|]. split; [apply incl_refl|]. split; [intros e []|]. intros y. split; [now left|].
    intros [H|(q & [])]; exact H.
  - destruct (run_one p s e) as (s1 & -> & S1 & G & B). cbn [rbind].
    destruct (IH s1) as (s' & -> & K & W & I & A & S). exists s'. split; [reflexivity|].
    pose proof (fun b => fine_more p (k_seen s) (k_seen s1) e b S1) as FM.
    destruct (fine_dec p (k_seen s) e) as [F|F].
    + destruct (G F) as [G1 G2].
      assert (FF : forall b, fine p (k_seen s1) b <-> fine p (k_seen s) b).
      { intros b. destruct (FM b) as [M1 M2]. split; [|exact M1]. intros X. destruct (M2 X) as [Y|[Y Z]]; [exact Y|].
        exfalso. apply Z. exact (alike_fine _ _ _ _ Y F). }
      rewrite G1 in K. rewrite G2 in W, I.
      split; [|split; [|split; [exact I|split]]].
      * rewrite K. split; intros [K1 K2]; (split; [exact K1|]).
        -- intros b [<-|Hb]; [exact F|]. apply FF. now apply K2.
        -- intros b Hb. apply FF. apply K2. now right.
      * intros w Hw. destruct (W w Hw) as [Hl|(b & Hb & E & N)]; [now left|]. right. exists b.
        split; [now right|]. split; [exact E|]. now rewrite <- FF.
      * intros b [<-|Hb] N; [contradiction|]. destruct (A b Hb) as (b' & Hb' & X & Y); [now rewrite FF|].
        exists b'. split; [now right|]. now split.
      * intros y. rewrite S, S1. destruct e as [q x n|q l]; cbn [remembered In].
        -- split; [intros [[<-|H]|(r & H)]|intros [H|(r & [H|H])]]; try tauto; try solve [right; eauto].
           injection H as _ -> ->. left. left. now destruct y.
        -- split; [intros [H|(r & H)]|intros [H|(r & [H|H])]]; try tauto; try solve [right; eauto]. discriminate H.
    + destruct (B F) as [B1 B2]. rewrite B1 in K. rewrite B2 in W, I.
      split; [|split; [|split; [|split]]].
      * rewrite K. split; [intros [X _]; discriminate X|]. intros [_ X]. exfalso. apply F. apply X. now left.
      * intros w Hw. destruct (W w Hw) as [Hl|(b & Hb & E & N)].
        -- apply in_app_iff in Hl as [Hl|[<-|[]]]; [now left|]. right. exists e. split; [now left|]. now split.
        -- right. exists b. split; [now right|]. split; [exact E|]. intros X. apply N. now apply FM.
      * intros w Hw. apply I. apply in_app_iff. now left.
      * intros b [<-|Hb] N.
        -- exists e. split; [now left|]. split; [apply alike_refl|]. apply I. apply in_app_iff. right. now left.
        -- destruct (fine_dec p (k_seen s1) b) as [X|X].
           ++ destruct (FM b) as [_ M2]. destruct (M2 X) as [Y|[Y _]]; [contradiction|].
              exists e. split; [now left|]. split; [exact Y|]. apply I. apply in_app_iff. right. now left.
           ++ destruct (A b Hb X) as (b' & Hb' & Y & Z). exists b'. split; [now right|]. now split.
      * intros y. rewrite S, S1. destruct e as [q x n|q l]; cbn [remembered In].
        -- split; [intros [[<-|H]|(r & H)]|intros [H|(r & [H|H])]]; try tauto; try solve [right; eauto].
           injection H as _ -> ->. left. left. now destruct y.
        -- split; [intros [H|(r & H)]|intros [H|(r & [H|H])]]; try tauto; try solve [right; eauto]. discriminate H.
Qed.

(** ** The checks that are made *)
Lemma rmap_cpu : exists v, dget str_eqb (L "cpu") RES_MAP = Some v.
Proof. eexists. vm_compute. reflexivity. Qed.
Lemma rmap_memory : exists v, dget str_eqb (L "memory") RES_MAP = Some v.
Proof. eexists. vm_compute. reflexivity. Qed.
Lemma rmap_nic : exists v, dget str_eqb (L "ethernet") RES_MAP = Some v.
Proof. eexists. vm_compute. reflexivity. Qed.
Lemma no_conds : forall ver, plain_conditions ver [].
Proof. intros ver c []. Qed.

Lemma find_one : forall E h rt q keys, ids_ok (e_ver E) h -> natural_sort (map fst h) = Ok keys ->
  (exists v, dget str_eqb (L rt) RES_MAP = Some v) ->
  match find_item E h (Some (L rt)) [] q with
  | Ok (Some k) => exists i, hitem k h = Ok i /\ device E h rt q k i /\ at_most_one E h rt q
  | Ok None => forall k i, ~ device E h rt q k i
  | Err e => e = ELookupError /\ ~ at_most_one E h rt q
  end.
Proof.
  intros E h rt q keys Hi Hk Hv. pose proof (find_item_wanted E h (Some (L rt)) [] q Hi (no_conds _)) as F.
  destruct (find_all_ok E h (Some (L rt)) [] [q] keys Hi (no_conds _) Hk) as [ks Hks].
  { intros t [= <-]. exact Hv. }
  unfold find_item in *. rewrite Hks in *. cbn [rbind] in *.
  destruct ks as [|k [|k2 ks]].
  - intros k i [H1 H2]. exact (F k i H1 H2).
  - destruct F as (i & H1 & H2 & H3). exists i. split.
    { unfold hitem. rewrite (proj2 (hget_In _ _ _ (proj1 Hi)) H1). reflexivity. }
    split; [now split|]. intros a x b y [A1 A2] [B1 B2]. rewrite (H3 a x A1 A2). symmetry. exact (H3 b y B1 B2).
  - split; [reflexivity|]. destruct F as (k' & i & k'' & i' & H1 & H2 & H3 & H4 & H5).
    intros A. apply H3. apply (A k' i k'' i'); now split.
Qed.

Lemma device_unique : forall E h rt q k i k' i', NoDup (map fst h) -> at_most_one E h rt q ->
  device E h rt q k i -> device E h rt q k' i' -> k' = k /\ i' = i.
Proof.
  intros E h rt q k i k' i' ND A D D'. pose proof (A k' i' k i D' D) as ->. split; [reflexivity|].
  destruct D as [D _], D' as [D' _]. apply (hget_In _ _ _ ND) in D. apply (hget_In _ _ _ ND) in D'. congruence.
Qed.

Lemma cpus_events : forall p E h q keys, ids_ok (e_ver E) h -> natural_sort (map fst h) = Ok keys ->
  readable E h q -> exists evs, (forall s, check_cpus p E h q s = fold_result (run p) evs s) /\
  (forall e, In e evs -> exists n, e = Num q HCpus n) /\
  (forall n, In (Num q HCpus n) evs <-> measured E h q HCpus n).
Proof.
  intros p E h q keys Hi Hk (A & _ & R & _). pose proof (find_one E h "cpu" q keys Hi Hk rmap_cpu) as F.
  unfold check_cpus. destruct (find_item E h (Some (L "cpu")) [] q) as [[k|]|e]; cbn [rbind].
  - destruct F as (i & Hh & D & _). rewrite Hh. cbn [rbind]. destruct (R k i D) as (s & n & Q & N).
    unfold quantity, reports in Q. rewrite Q. cbn [rbind int_of]. unfold int_or_err. rewrite N. cbn [rbind].
    exists [Num q HCpus n]. split.
    { intros st. cbn [fold_result run]. now destruct (check_number p q HCpus n st). }
    split; [intros e [<-|[]]; now exists n|]. intros m. split.
    + intros [[= ->]|[]]. now apply (M_cpus E h q k i s m).
    + intros M. inversion M; subst. destruct (device_unique E h "cpu" q k i k0 i0 (proj1 Hi) A D H) as [-> ->].
      unfold quantity, reports in H0. rewrite Q in H0. injection H0 as <-. left. f_equal. congruence.
  - exists []. split; [reflexivity|]. split; [intros e []|]. intros n. split; [intros []|].
    intros M. inversion M; subst. exact (F _ _ H).
  - now destruct F as [_ F].
Qed.

Lemma mebibytes_exact : forall b, (Z.abs b < 2 ^ 53)%Z -> mebibytes b = Ok (Z.quot b (1024 * 1024)).
Proof.
  intros b H. unfold mebibytes. rewrite round53_small by lia.
  destruct (Z.leb_spec (2 ^ 1044) (Z.abs b)) as [K|K]; [|reflexivity].
  exfalso. assert (2 ^ 53 <= 2 ^ 1044)%Z by (apply Z.pow_le_mono_r; lia). lia.
Qed.

Lemma memory_events : forall p E h q keys, ids_ok (e_ver E) h -> natural_sort (map fst h) = Ok keys ->
  readable E h q -> exists evs, (forall s, check_memory p E h q s = fold_result (run p) evs s) /\
  (forall e, In e evs -> exists n, e = Num q HMemory n) /\
  (forall n, In (Num q HMemory n) evs <-> measured E h q HMemory n).
Proof.
  intros p E h q keys Hi Hk (_ & A & _ & R). pose proof (find_one E h "memory" q keys Hi Hk rmap_memory) as F.
  unfold check_memory. destruct (find_item E h (Some (L "memory")) [] q) as [[k|]|e]; cbn [rbind].
  - destruct F as (i & Hh & D & _). rewrite Hh. cbn [rbind]. destruct (R k i D) as (s & u & b & Q & U & B & Sm).
    assert (HB : exists o, get_value E (i_props i) ALLOCATION_UNITS (Some [q]) = Ok o /\ bytes_of (Some (VStr s)) o = Ok b).
    { destruct U as [U|[U ->]]; unfold reports in U; rewrite U; eexists; (split; [reflexivity|]); exact B. }
    destruct HB as (o & Ho & HB). unfold quantity, reports in Q. rewrite Q. cbn [rbind]. rewrite Ho. cbn [rbind].
    rewrite HB. cbn [rbind]. rewrite (mebibytes_exact b Sm). cbn [rbind].
    exists [Num q HMemory (Z.quot b (1024 * 1024))]. split.
    { intros st. cbn [fold_result run]. now destruct (check_number p q HMemory (Z.quot b (1024 * 1024)) st). }
    split; [intros e [<-|[]]; eauto|]. intros m. split.
    + intros [[= <-]|[]]. now apply (M_memory E h q k i s u b).
    + intros M. inversion M; subst. destruct (device_unique E h "memory" q k i k0 i0 (proj1 Hi) A D H) as [-> ->].
      unfold quantity, reports in H0. rewrite Q in H0. injection H0 as <-.
      assert (u0 = u) as ->.
      { destruct U as [U|[U ->]], H1 as [V|[V ->]]; unfold reports in *; congruence. }
      left. f_equal. f_equal. congruence.
  - exists []. split; [reflexivity|]. split; [intros e []|]. intros n. split; [intros []|].
    intros M. inversion M; subst. exact (F _ _ H).
  - now destruct F as [_ F].
Qed.

Lemma nics_events : forall p E h q keys, ids_ok (e_ver E) h -> natural_sort (map fst h) = Ok keys ->
  exists n, (forall s, check_nics p E h q s = check_number p q HNics n s) /\
  (forall m, measured E h q HNics m <-> m = n).
Proof.
  intros p E h q keys Hi Hk.
  destruct (find_all_ok E h (Some (L "ethernet")) [] [q] keys Hi (no_conds _) Hk) as [ks Hks].
  { intros t [= <-]. exact rmap_nic. }
  pose proof (find_all_wanted E h (Some (L "ethernet")) [] [q] ks Hi (no_conds _) Hks) as (ND & _ & W).
  exists (Z.of_nat (length ks)). split.
  - intros s. unfold check_nics. rewrite (count_devices E h (L "ethernet") (L "10") q ks eq_refl Hks). reflexivity.
  - intros m. split.
    + intros M. inversion M as [| |ks' ND' W' E1 E2]; subst. f_equal. apply Permutation_length. apply NoDup_Permutation; [exact ND'|exact ND|].
      intros k. rewrite W', W. reflexivity.
    + intros ->. now apply (M_nics E h q ks).
Qed.

Lemma union_step : forall ls r t, In t (fold_left (fun r l => r ++ filter (fun x => negb (mem_str x r)) l) ls r) <->
  In t r \/ exists l, In l ls /\ In t l.
Proof.
  intros ls. induction ls as [|l ls IH]; intros r t; cbn [fold_left].
  - split; [now left|]. intros [H|(l & [] & _)]. exact H.
  - rewrite IH, in_app_iff, filter_In. split.
    + intros [[H|[H _]]|(m & Hm & Ht)]; [now left|right; exists l; split; [now left|exact H]|right; exists m; split; [now right|exact Ht]].
    + intros [H|(m & [<-|Hm] & Ht)]; [tauto| |right; now exists m].
      destruct (mem_str t r) eqn:M; [left; left; now apply mem_str_In|]. left. right. split; [exact Ht|]. reflexivity.
Qed.
Lemma list_union_In : forall ls t, In t (list_union ls) <-> exists l, In l ls /\ In t l.
Proof. intros ls t. unfold list_union. rewrite union_step. cbn [In]. tauto. Qed.

Lemma subtypes_In : forall ver i t, reachable ver i ->
  (In t (get_all_subtypes (i_props i)) <-> exists q l, own (i_props i) RESOURCE_SUB_TYPE q (VTuple l) /\ In t l).
Proof.
  intros ver i t R. pose proof (reachable_good _ _ R) as G. pose proof (reachable_typed _ _ R) as T.
  unfold get_all_subtypes. destruct (prget RESOURCE_SUB_TYPE (i_props i)) as [d|] eqn:Hd.
  - assert (Hd' : In (RESOURCE_SUB_TYPE, d) (i_props i)) by now apply prget_In; [apply G|].
    rewrite list_union_In. split.
    + intros (l & Hl & Ht). apply in_map_iff in Hl as ([v s] & E & Hv). cbn [fst] in E.
      destruct (proj1 (proj2 (proj1 (proj2 G) _ _ Hd')) v s Hv) as (_ & Hs & _).
      destruct s as [|q s]; [now destruct Hs|].
      assert (O : own (i_props i) RESOURCE_SUB_TYPE q v) by (exists d, (q :: s); split; [exact Hd'|]; split; [exact Hv|now left]).
      pose proof (T _ _ _ O) as X. cbn in X. destruct X as [l' ->]. subst l'. now exists q, l.
    + intros (q & l & (d' & s & H1 & H2 & H3) & Ht).
      assert (d' = d) as -> by (apply prget_In in H1; [congruence|apply G]).
      exists l. split; [|exact Ht]. apply in_map_iff. now exists (VTuple l, s).
  - split; [intros []|]. intros (q & l & (d & s & H1 & _) & _). apply prget_In in H1; [congruence|apply G].
Qed.

Lemma types_fold : forall h ks ls, (forall k, In k ks -> exists i, hitem k h = Ok i) ->
  exists ls', fold_result (fun ls k => do i <- hitem k h; Ok (ls ++ [get_all_subtypes (i_props i)])) ks ls = Ok ls' /\
  forall l, In l ls' <-> In l ls \/ exists k i, In k ks /\ hitem k h = Ok i /\ l = get_all_subtypes (i_props i).
Proof.
  intros h ks. induction ks as [|k ks IH]; intros ls H; cbn [fold_result].
  - exists ls. split; [reflexivity|]. intros l. split; [now left|]. intros [X|(k & i & [] & _)]. exact X.
  - destruct (H k (or_introl eq_refl)) as (i & Hi). rewrite Hi. cbn [rbind].
    destruct (IH (ls ++ [get_all_subtypes (i_props i)])) as (ls' & -> & S); [intros k' Hk'; apply H; now right|].
    exists ls'. split; [reflexivity|]. intros l. rewrite S, in_app_iff. cbn [In]. split.
    + intros [[X|[<-|[]]]|(k' & i' & A & B & C)]; [now left|right; exists k, i; auto|right; exists k', i'; auto].
    + intros [X|(k' & i' & [<-|A] & B & C)]; [tauto| |right; exists k', i'; auto].
      left. right. left. congruence.
Qed.
Lemma types_spec : forall E h keys, ids_ok (e_ver E) h -> natural_sort (map fst h) = Ok keys ->
  exists l, nic_types E h = Ok l /\ forall t, In t l <-> nic_type E h t.
Proof.
  intros E h keys Hi Hk.
  destruct (find_all_ok E h (Some (L "ethernet")) [] [] keys Hi (no_conds _) Hk) as [ks Hks].
  { intros t [= <-]. exact rmap_nic. }
  pose proof (find_all_wanted E h (Some (L "ethernet")) [] [] ks Hi (no_conds _) Hks) as (_ & _ & W).
  unfold nic_types. rewrite Hks. cbn [rbind].
  assert (HH : forall k i, In (k, i) h -> hitem k h = Ok i).
  { intros k i H. unfold hitem. now rewrite (proj2 (hget_In _ _ _ (proj1 Hi)) H). }
  destruct (types_fold h ks []) as (ls & -> & S).
  { intros k H. apply W in H as (i & H & _). exists i. now apply HH. }
  cbn [rbind]. eexists. split; [reflexivity|]. intros t. rewrite list_union_In. split.
  - intros (l & Hl & Ht). apply S in Hl as [[]|(k & i & H1 & H2 & ->)]. apply W in H1 as (i' & H1 & H3).
    rewrite (HH k i' H1) in H2. injection H2 as ->. destruct (ids_good E h k i Hi H1) as [R _].
    apply (subtypes_In _ _ _ R) in Ht as (q & l & O & Ht). now exists k, i, q, l.
  - intros (k & i & q & l & H1 & H2 & O & Ht). destruct (ids_good E h k i Hi H1) as [R _].
    exists (get_all_subtypes (i_props i)). split.
    + apply S. right. exists k, i. split; [apply W; now exists i|]. split; [now apply HH|reflexivity].
    + apply (subtypes_In _ _ _ R). now exists q, l.
Qed.

Lemma fold_run_app : forall p a b s, fold_result (run p) (a ++ b) s =
  (do s1 <- fold_result (run p) a s; fold_result (run p) b s1).
Proof.
  intros p a b. induction a as [|e a IH]; intros s; cbn [fold_result app rbind]; [reflexivity|].
  destruct (run p s e); cbn [rbind]; [apply IH|reflexivity].
Qed.

(** The checks of one profile. *)
Definition are_checks (E : env) (h : hw) (P : profile -> Prop) (evs : list ev) : Prop :=
  (forall q x n, In (Num q x n) evs <-> P q /\ measured E h q x n) /\
  (forall q l, In (Types q l) evs -> P q /\ forall t, In t l <-> nic_type E h t) /\
  (forall q, P q -> exists l, In (Types q l) evs).

Lemma profile_events : forall p E h q keys, ids_ok (e_ver E) h -> natural_sort (map fst h) = Ok keys -> readable E h q ->
  exists evs, (forall s, check_profile p E h s q = fold_result (run p) evs s) /\ are_checks E h (eq q) evs.
Proof.
  intros p E h q keys Hi Hk R.
  destruct (cpus_events p E h q keys Hi Hk R) as (a & A1 & A2 & A3).
  destruct (memory_events p E h q keys Hi Hk R) as (b & B1 & B2 & B3).
  destruct (nics_events p E h q keys Hi Hk) as (n & N1 & N2).
  destruct (types_spec E h keys Hi Hk) as (l & L1 & L2).
  exists (a ++ b ++ [Num q HNics n; Types q l]). split.
  - intros s. unfold check_profile. rewrite A1, fold_run_app. destruct (fold_result (run p) a s) as [s1|e]; cbn [rbind]; [|reflexivity].
    rewrite B1, fold_run_app. destruct (fold_result (run p) b s1) as [s2|e]; cbn [rbind]; [|reflexivity].
    rewrite N1. cbn [fold_result run]. destruct (check_number p q HNics n s2) as [s3|e]; cbn [rbind]; [|reflexivity].
    unfold check_nic_types. rewrite L1. cbn [rbind]. now destruct (check_types p q l s3).
  - split; [|split].
    + intros r x m. rewrite !in_app_iff. cbn [In]. split.
      * intros [H|[H|[H|[H|[]]]]].
        -- destruct (A2 _ H) as (m' & [= -> -> ->]). split; [reflexivity|]. now apply A3.
        -- destruct (B2 _ H) as (m' & [= -> -> ->]). split; [reflexivity|]. now apply B3.
        -- injection H as <- <- <-. split; [reflexivity|]. now apply N2.
        -- discriminate H.
      * intros [<- M]. destruct x; [left; now apply A3|right; left; now apply B3| |inversion M].
        right. right. left. apply N2 in M. now subst m.
    + intros r m H. rewrite !in_app_iff in H. cbn [In] in H. destruct H as [H|[H|[H|[H|[]]]]].
      * destruct (A2 _ H) as (m' & [=]).
      * destruct (B2 _ H) as (m' & [=]).
      * discriminate H.
      * injection H as <- <-. now split.
    + intros r <-. exists l. rewrite !in_app_iff. cbn [In]. auto.
Qed.

Lemma all_events : forall p E h keys, ids_ok (e_ver E) h -> natural_sort (map fst h) = Ok keys ->
  forall qs, (forall q, In q qs -> readable E h q) ->
  exists evs, (forall s, fold_result (check_profile p E h) qs s = fold_result (run p) evs s) /\
    are_checks E h (fun q => In q qs) evs.
Proof.
  intros p E h keys Hi Hk qs. induction qs as [|q qs IH]; intros R.
  - exists []. split; [reflexivity|]. split; [|split]; cbn [In]; [tauto| |]; intros q; [intros l []|intros []].
  - destruct (profile_events p E h q keys Hi Hk) as (a & A & A1 & A2 & A3); [apply R; now left|].
    destruct IH as (b & B & B1 & B2 & B3); [intros r Hr; apply R; now right|].
    exists (a ++ b). split.
    + intros s. cbn [fold_result]. rewrite A, fold_run_app. destruct (fold_result (run p) a s); cbn [rbind]; [apply B|reflexivity].
    + split; [|split].
      * intros r x n. rewrite in_app_iff, A1, B1. cbn [In]. tauto.
      * intros r l H. rewrite in_app_iff in H. destruct H as [H|H]; [apply A2 in H|apply B2 in H]; cbn [In]; tauto.
      * intros r [<-|Hr]; [destruct (A3 q eq_refl) as (l & H)|destruct (B3 r Hr) as (l & H)]; exists l; apply in_app_iff; tauto.
Qed.

Lemma profiles_In : forall E q, In q (validated_profiles E) <-> profile_of E q.
Proof.
  intros E q. unfold validated_profiles, profile_of. destruct (e_profiles E) as [|x l].
  - destruct q as [x|]; cbn [In]; split; [intros [H|[]]; discriminate|intros []|reflexivity|now left].
  - rewrite in_map_iff. destruct q as [y|]; [|split; [intros (z & [=] & _)|discriminate]].
    split; [now intros (z & [= ->] & H)|]. intros H. now exists y.
Qed.

Theorem validate_spec : forall p E h history keys, hw_reachable (e_ver E) h -> natural_sort (map fst h) = Ok keys ->
  (forall q, profile_of E q -> readable E h q) ->
  exists r, validate_hardware p E h (after p [] history) = Ok r /\
    (k_ok r = true <->
       (forall q x n, profile_of E q -> measured E h q x n -> acceptable p history x n) /\
       (forall t, nic_type E h t -> In t (supported_nic_types p))) /\
    (k_warn r = [] <-> k_ok r = true) /\
    (forall q x, In (q, Some x) (k_warn r) -> profile_of E q /\ exists n, measured E h q x n /\ ~ acceptable p history x n) /\
    (forall q, In (q, None) (k_warn r) -> profile_of E q /\ ~ forall t, nic_type E h t -> In t (supported_nic_types p)) /\
    (forall q x n, profile_of E q -> measured E h q x n -> ~ acceptable p history x n ->
       exists q', profile_of E q' /\ measured E h q' x n /\ In (q', Some x) (k_warn r)) /\
    (forall x n, In (x, n) (k_seen r) <-> In (x, n) history \/ exists q, profile_of E q /\ measured E h q x n).
Proof.
  intros p E h history keys HR Hk R. pose proof (reachable_ids _ _ HR) as Hi.
  destruct (all_events p E h keys Hi Hk (validated_profiles E)) as (evs & V & C1 & C2 & C3).
  { intros q Hq. apply R. now apply profiles_In. }
  destruct (run_all p evs (mkChecked true (after p [] history) [])) as (r & Hr & K & W & _ & A & S).
  cbn [k_ok k_seen k_warn] in *.
  assert (AC : forall q x n, fine p (after p [] history) (Num q x n) <-> acceptable p history x n).
  { intros q x n. cbn [fine]. unfold acceptable. rewrite after_cache. cbn [In]. tauto. }
  assert (TY : forall q l, In (Types q l) evs -> (fine p (after p [] history) (Types q l) <->
            forall t, nic_type E h t -> In t (supported_nic_types p))).
  { intros q l H. cbn [fine]. apply C2 in H as [_ H]. split; intros X t Ht; apply X; now apply H. }
  assert (SOME : exists q, In q (validated_profiles E)).
  { unfold validated_profiles. destruct (e_profiles E) as [|x l]; [exists None|exists (Some x)]; now left. }
  assert (KK : k_ok r = true <->
       (forall q x n, profile_of E q -> measured E h q x n -> acceptable p history x n) /\
       (forall t, nic_type E h t -> In t (supported_nic_types p))).
  { rewrite K. split.
    - intros [_ X]. split.
      + intros q x n Hq M. apply (AC q). apply X. apply C1. split; [now apply profiles_In|exact M].
      + destruct SOME as (q & Hq). destruct (C3 q Hq) as (l & Hl). apply (TY q l Hl). now apply X.
    - intros [X Y]. split; [reflexivity|]. intros [q x n|q l] He.
      + apply C1 in He as [Hq M]. apply AC. apply (X q); [now apply profiles_In|exact M].
      + now apply (TY q l He). }
  exists r. split; [unfold validate_hardware; rewrite V; exact Hr|]. split; [exact KK|]. split; [|split; [|split; [|split]]].
  - split.
    + intros N. destruct (k_ok r) eqn:Ek; [reflexivity|]. exfalso.
      assert (NF : ~ forall e, In e evs -> fine p (after p [] history) e).
      { intros X. destruct K as [_ K2]. specialize (K2 (conj eq_refl X)). discriminate K2. }
      apply NF. intros e He. destruct (fine_dec p (after p [] history) e) as [F|F]; [exact F|].
      destruct (A e He F) as (e' & _ & _ & Hw). rewrite N in Hw. destruct Hw.
    + intros Ek. apply K in Ek as [_ X]. destruct (k_warn r) as [|w ws] eqn:Ew; [reflexivity|]. exfalso.
      destruct (W w (or_introl eq_refl)) as [[]|(e & He & _ & F)]. exact (F (X e He)).
  - intros q x H. destruct (W _ H) as [[]|(e & He & Ee & F)]. destruct e as [q' x' n|q' l]; [|discriminate Ee].
    injection Ee as <- <-. apply C1 in He as [Hq M]. split; [now apply profiles_In|]. exists n. split; [exact M|]. now rewrite <- (AC q).
  - intros q H. destruct (W _ H) as [[]|(e & He & Ee & F)]. destruct e as [q' x' n|q' l]; [discriminate Ee|].
    injection Ee as <-. split; [apply profiles_In; now apply (C2 q l)|]. now rewrite <- (TY q l He).
  - intros q x n Hq M N. destruct (A (Num q x n)) as (e' & He' & Al & Hw).
    { apply C1. split; [now apply profiles_In|exact M]. }
    { now rewrite AC. }
    destruct e' as [q' x' n'|q' l]; [|destruct Al]. destruct Al as [-> ->]. apply C1 in He' as [Hq' M'].
    exists q'. split; [now apply profiles_In|]. now split.
  - intros x n. rewrite S. cbn [fst snd]. rewrite after_cache. cbn [In]. split.
    + intros [[[]|H]|(q & H)]; [now left|]. right. apply C1 in H as [Hq M]. exists q. split; [now apply profiles_In|exact M].
    + intros [H|(q & Hq & M)]; [tauto|]. right. exists q. apply C1. split; [now apply profiles_In|exact M].
Qed.

(** Two CPU devices (or two memory devices) under one profile cannot be checked. *)
Lemma fold_err : forall A B (f : B -> A -> result B) l a b0, In a l -> (forall b, exists e, f b a = Err e) ->
  exists e, fold_result f l b0 = Err e.
Proof.
  intros A B f l a. induction l as [|x l IH]; intros b0 H F; [destruct H|]. cbn [fold_result].
  destruct (f b0 x) as [b1|e] eqn:E; cbn [rbind]; [|now exists e].
  destruct H as [->|H]; [|now apply IH]. destruct (F b0) as (e & He). congruence.
Qed.
Theorem validate_two : forall p E h seen q rt, hw_reachable (e_ver E) h -> profile_of E q ->
  rt = "cpu"%string \/ rt = "memory"%string ->
  (exists k i k' i', device E h rt q k i /\ device E h rt q k' i' /\ k <> k') ->
  exists e, validate_hardware p E h seen = Err e.
Proof.
  intros p E h seen q rt HR Hq Hrt (k & i & k' & i' & D & D' & N). pose proof (reachable_ids _ _ HR) as Hi.
  unfold validate_hardware. apply (fold_err _ _ _ _ q); [now apply profiles_In|]. intros s.
  destruct (natural_sort (map fst h)) as [keys|e0] eqn:Hk.
  2:{ unfold check_profile, check_cpus, find_item, find_all_items. rewrite Hk. cbn [rbind]. now exists e0. }
  unfold check_profile. destruct (check_cpus p E h q s) as [s1|e] eqn:Ec; cbn [rbind]; [|now exists e].
  destruct Hrt as [-> | ->].
  - exfalso. pose proof (find_one E h "cpu" q keys Hi Hk rmap_cpu) as F. unfold check_cpus in Ec.
    destruct (find_item E h (Some (L "cpu")) [] q) as [[a|]|e]; [|exact (F _ _ D)|discriminate Ec].
    destruct F as (_ & _ & _ & A). exact (N (A _ _ _ _ D D')).
  - pose proof (find_one E h "memory" q keys Hi Hk rmap_memory) as F. unfold check_memory.
    destruct (find_item E h (Some (L "memory")) [] q) as [[a|]|e]; cbn [rbind]; [|exfalso; exact (F _ _ D)|now exists e].
    destruct F as (_ & _ & _ & A). exfalso. exact (N (A _ _ _ _ D D')).
Qed.
