(** When the references can be brought up to date, and that this keeps a package in order. *)
From Coq Require Import List Ascii ZArith Bool Lia Permutation.
Import ListNotations.
From Verif Require Import PyBase PyBaseProofs PyDict PyDictProofs NetworkModel XmlModel NamesModel ItemModel ItemSpec UnitsModel UnitsSpec UnitsProofs HardwareModel DriveModel DriveSpec
  InfoModel InfoSpec InfoProfileProofs EnvPropProofs LinkProofs AddProofs RefreshModel RefreshSpec RefreshProofs.
Local Open Scope nat_scope.

Lemma places_NoDup : forall A (f : A -> bool) l n, NoDup (places f n l).
Proof.
  intros A f. induction l as [ | x l IH]; intros n; cbn [places]; [constructor | ]. destruct (f x); [ | apply IH]. constructor; [ | apply IH].
  intros C. apply places_In in C as [C _]. lia.
Qed.
Lemma find_place_one : forall p tag k x j e, nth_error (echildren p) j = Some e -> etag e = tag -> get_attr e k = x ->
  (forall j' e', nth_error (echildren p) j' = Some e' -> etag e' = tag -> get_attr e' k = x -> j' = j) -> find_place p tag k x = Ok (Some j).
Proof.
  intros p tag k x j e H1 H2 H3 U. unfold find_place. pose proof (places_NoDup _ (is_child tag k x) (echildren p) 0) as N.
  assert (I : forall i, In i (places (is_child tag k x) 0 (echildren p)) <-> i = j).
  { intros i. rewrite places_In, Nat.sub_0_r. split.
    - intros (_ & e' & He' & Hc). unfold is_child in Hc. apply andb_true_iff in Hc as [C1 C2]. apply str_eqb_eq in C1. apply opt_eqb_eq in C2. now apply (U i e').
    - intros ->. split; [lia | ]. exists e. split; [exact H1 | ]. unfold is_child. apply andb_true_iff. split; [now apply str_eqb_eq | now apply opt_eqb_eq]. }
  destruct (places (is_child tag k x) 0 (echildren p)) as [ | a [ | b l]].
  - exfalso. apply (proj2 (I j) eq_refl).
  - now rewrite (proj1 (I a) (or_introl eq_refl)).
  - exfalso. inversion N as [ | ? ? N1 _]; subst. apply N1. left.
    transitivity j; [apply I; right; now left | symmetry; apply I; now left].
Qed.
Lemma find_place_nothing : forall p tag k x, (forall j e, nth_error (echildren p) j = Some e -> etag e = tag -> get_attr e k = x -> False) -> find_place p tag k x = Ok None.
Proof.
  intros p tag k x U. unfold find_place. destruct (places (is_child tag k x) 0 (echildren p)) as [ | a l] eqn:El; [reflexivity | exfalso].
  assert (I : In a (places (is_child tag k x) 0 (echildren p))) by (rewrite El; now left).
  apply places_In in I as (_ & e & He & Hc). rewrite Nat.sub_0_r in He. unfold is_child in Hc. apply andb_true_iff in Hc as [C1 C2].
  apply str_eqb_eq in C1. apply opt_eqb_eq in C2. now apply (U a e).
Qed.

(** Elements at different places have different values. *)
Lemma same_place : forall A B (t : A -> bool) (g : A -> B) l i j a b, NoDup (map g (filter t l)) ->
  nth_error l i = Some a -> nth_error l j = Some b -> t a = true -> t b = true -> g a = g b -> i = j.
Proof.
  intros A B t g. induction l as [ | x l IH]; intros i j a b N Hi Hj Ta Tb G; [now destruct i | ]. cbn [filter] in N.
  destruct i as [ | i], j as [ | j]; cbn [nth_error] in Hi, Hj.
  - reflexivity.
  - injection Hi as ->. rewrite Ta in N. cbn [map] in N. inversion N as [ | ? ? N1 _]; subst. exfalso. apply N1. rewrite G. apply in_map, filter_In. split; [now apply nth_error_In in Hj | exact Tb].
  - injection Hj as ->. rewrite Tb in N. cbn [map] in N. inversion N as [ | ? ? N1 _]; subst. exfalso. apply N1. rewrite <- G. apply in_map, filter_In. split; [now apply nth_error_In in Hi | exact Ta].
  - f_equal. apply (IH i j a b); try assumption. destruct (t x); [now inversion N | exact N].
Qed.
Lemma nodup_filter : forall A B (g : A -> B) (s : A -> bool) l, NoDup (map g l) -> NoDup (map g (filter s l)).
Proof.
  intros A B g s. induction l as [ | x l IH]; intros N; cbn [filter map] in *; [constructor | ]. inversion N as [ | ? ? N1 N2]; subst.
  destruct (s x); [ | now apply IH]. cbn [map]. constructor; [ | now apply IH]. intros C. apply N1. apply in_map_iff in C as (y & Hy & Hin).
  apply filter_In in Hin as [Hin _]. apply in_map_iff. now exists y.
Qed.
Lemma filter_filter : forall A (s t : A -> bool) l, filter t (filter s l) = filter s (filter t l).
Proof.
  intros A s t. induction l as [ | x l IH]; [reflexivity | ]. cbn [filter]. destruct (s x) eqn:S, (t x) eqn:T; cbn [filter]; rewrite ?S, ?T, ?IH; reflexivity.
Qed.
Lemma update_nth : forall A (f : A -> A) l j x, nth_error l j = Some x -> nth_error (update_at j f l) j = Some (f x).
Proof. intros A f. induction l as [ | a l IH]; intros [ | j] x H; try discriminate; cbn [update_at nth_error] in *; [congruence | now apply IH]. Qed.

Section Ready.
Variables (E : env) (W : world) (fuel : nat) (m : vmd).
Let v : version := e_ver E.
Hypothesis L : linked v m.
Hypothesis O : one_disk v m.
Hypothesis S : sourced v m.
Let live := filter (fun nd => w_exists W (fst nd) (snd nd)) (m_sources m).
Let K := filter (stays E live) (echildren (m_refs m)).

Lemma K_distinct : NoDup (map (fun f => get_attr f (FILE_HREF v)) (filter (fun e => str_eqb (etag e) (FILE v)) K)).
Proof.
  unfold K. rewrite filter_filter. apply nodup_filter. exact (proj2 (l_file_names v m L)).
Qed.
Lemma disk_place : forall s i j a b id, m_disks m = Some s -> nth_error (echildren s) i = Some a -> nth_error (echildren s) j = Some b ->
  etag a = DISK v -> etag b = DISK v -> get_attr a (DISK_FILE_REF v) = Some id -> get_attr b (DISK_FILE_REF v) = Some id -> i = j.
Proof.
  intros s i j a b id Hs Ha Hb Ta Tb Ia Ib.
  assert (Ia' : In a (disks v m)). { unfold disks. rewrite Hs. apply filter_In. split; [now apply nth_error_In in Ha | now apply str_eqb_eq]. }
  assert (Ib' : In b (disks v m)). { unfold disks. rewrite Hs. apply filter_In. split; [now apply nth_error_In in Hb | now apply str_eqb_eq]. }
  pose proof (O a b id Ia' Ib' Ia Ib) as ->. pose proof (proj2 (l_disk_ids v m L)) as N. unfold disks in N. rewrite Hs in N.
  apply (same_place _ _ _ _ _ i j b b N Ha Hb); [now apply str_eqb_eq | now apply str_eqb_eq | reflexivity].
Qed.

Hypothesis good : measured W.
Hypothesis units : plain_units v m.
(** All files that are there can be read, and so can the capacities that matter. *)
Hypothesis readable : forall h d, is_there W m h d -> w_check W h d = Ok tt /\ exists z, w_size W h d = Ok z.
Hypothesis images : forall x id f h d, In x (disks v m) -> In f (files v m) -> get_attr f (FILE_ID v) = Some id -> get_attr x (DISK_FILE_REF v) = Some id ->
  get_attr f (FILE_HREF v) = Some h -> is_there W m h d -> w_on_disk W h d = true ->
  (exists r, capacity v x r) /\ exists c n, w_capacity W h d = Ok c /\ py_int c = Some n /\ (0 < n)%Z.
Hypothesis enough : 100 <= fuel.

Lemma live_ok : live_sources W (m_sources m) = Ok live.
Proof.
  unfold live. assert (G : forall h d, In (h, d) (m_sources m) -> w_exists W h d = true -> w_check W h d = Ok tt).
  { intros h d H1 H2. exact (proj1 (readable h d (conj H1 H2))). }
  clear - G. induction (m_sources m) as [ | [n d] l IH]; [reflexivity | ]. cbn [live_sources filter fst snd].
  assert (G' : forall h d, In (h, d) l -> w_exists W h d = true -> w_check W h d = Ok tt) by (intros; apply G; [now right | assumption]).
  destruct (w_exists W n d) eqn:Ew; [ | now apply IH]. rewrite (G n d (or_introl eq_refl) Ew). cbn [rbind]. rewrite (IH G'). reflexivity.
Qed.
Lemma units_ok : forall z, (0 < z < 2 ^ 63)%Z -> exists b u, int_bytes_to_programmatic_units fuel z = Ok (b, u).
Proof.
  intros z Hz. assert (F : enough_fuel z fuel).
  { unfold enough_fuel. assert (Z.log2 (Z.abs z) < 63)%Z; [ | lia]. rewrite Z.abs_eq by lia. apply Z.log2_lt_pow2; lia. }
  assert (N0 : z <> 0%Z) by lia. assert (Hz' : (0 <= z < 2 ^ 63)%Z) by lia.
  destruct (proj2 (roundtrip_iff fuel z N0 F) (small_survive z Hz')) as (b & u & H & _). now exists b, u.
Qed.
Lemma new_capacity_ok : forall c n, py_int c = Some n -> (0 < n < 2 ^ 63)%Z -> exists a, new_capacity E fuel c = Ok a.
Proof.
  intros c n Hc Hn. unfold new_capacity. destruct (e_ver E); [now eexists | | ];
    (apply int_ok in Hc; rewrite Hc; cbn [rbind capacity_attrs]; destruct (units_ok n Hn) as (b & u & ->); cbn [rbind]; now eexists).
Qed.

Lemma step_ok : forall P n d rest m1, state E W m P m1 -> P ++ (n, d) :: rest = live -> exists m2, refresh_one E W fuel m1 (n, d) = Ok m2.
Proof.
  intros P n d rest m1 [S1 S2 S3 S4 S5] Hl. fold live in S2; fold live in S4; fold K in S4.
  assert (I : In (n, d) live) by (rewrite <- Hl; apply in_or_app; right; now left).
  pose proof (proj1 (live_In W m n d) I) as T.
  destruct (size_apart v) as [Z1 Z2]. destruct (names_apart v) as (N1 & N2 & N3 & N4 & N5).
  destruct (proj1 (proj2 S n)) as (f & Hf & Fh).
  { exists d. apply (dget_Some_In str_eqb str_eqb_eq); [exact (proj1 S) | exact (proj1 T)]. }
  apply in_files in Hf as [Hf Ft]. fold v in Ft.
  destruct (filter_nth _ (stays E live) _ f Hf (file_stays E W m (proj1 S) f n d Fh I)) as [j Hj]. change (nth_error K j = Some f) in Hj.
  destruct (Forall2_at_left _ _ _ _ _ _ _ S4 Hj) as (y & Hy & Ry).
  destruct (file_rel_keeps E W P f y (FILE_HREF v) Ry Z1) as [Yt Yh]. destruct (file_rel_keeps E W P f y (FILE_ID v) Ry Z2) as [_ Yid]. fold v in Yt, Yh, Yid.
  assert (Fp : find_place (m_refs m1) (FILE v) (FILE_HREF v) (Some n) = Ok (Some j)).
  { apply (find_place_one _ _ _ _ j y Hy); [congruence | congruence | ]. intros i b Hb Bt Bh.
    destruct (Forall2_at _ _ _ _ _ _ _ S4 Hb) as (a & Ha & Ra). destruct (file_rel_keeps E W P a b (FILE_HREF v) Ra Z1) as [At Ah]. fold v in At, Ah.
    apply (same_place _ _ _ _ _ i j a f K_distinct Ha Hj); [apply str_eqb_eq; congruence | now apply str_eqb_eq | cbn beta; congruence]. }
  destruct (readable n d T) as [_ [z Hz]].
  unfold refresh_one. fold v. rewrite Fp. cbn [rbind]. rewrite Hz. cbn [rbind].
  set (R1 := update_at j (set_attr (FILE_SIZE v) (zdec z)) (echildren (m_refs m1))). set (m3 := with_refs (set_children R1 (m_refs m1)) m1).
  assert (Cj : child_at (m_refs m3) j = Ok (set_attr (FILE_SIZE v) (zdec z) y)).
  { unfold child_at. cbn [m3 m_refs with_refs]. rewrite children_set. unfold R1. now rewrite (update_nth _ _ _ _ _ Hy). }
  rewrite Cj. cbn [rbind]. rewrite attr_other by exact Z2. rewrite Yid.
  unfold find_disk_from_file_id. cbn [m3 m_disks with_refs].
  destruct (get_attr f (FILE_ID v)) as [id | ] eqn:Fid; [ | now eexists].
  destruct (m_disks m1) as [s1 | ] eqn:Em1; [ | now eexists]. destruct (m_disks m) as [s | ] eqn:Em; [ | contradiction]. destruct S5 as [S5 S6].
  (* is there a Disk of this File? *)
  destruct (find (fun e => str_eqb (etag e) (DISK v) && opt_eqb (get_attr e (DISK_FILE_REF v)) (Some id)) (echildren s1)) as [b | ] eqn:Efind.
  - apply find_some in Efind as [Hb Eb]. apply andb_true_iff in Eb as [Bt Bf]. apply str_eqb_eq in Bt. apply opt_eqb_eq in Bf.
    apply In_nth_error in Hb as [k Hb]. destruct (Forall2_at _ _ _ _ _ _ _ S5 Hb) as (a & Ha & Ra).
    destruct (disk_rel_keeps E W m P a b (DISK_FILE_REF v) Ra N2 N3) as [At Af]. fold v in At, Af.
    assert (Dp : find_place s1 (DISK v) (DISK_FILE_REF v) (Some id) = Ok (Some k)).
    { apply (find_place_one _ _ _ _ k b Hb Bt Bf). intros i b' Hb' Bt' Bf'. destruct (Forall2_at _ _ _ _ _ _ _ S5 Hb') as (a' & Ha' & Ra').
      destruct (disk_rel_keeps E W m P a' b' (DISK_FILE_REF v) Ra' N2 N3) as [At' Af']. fold v in At', Af'.
      apply (disk_place s i k a' a id Em Ha' Ha); congruence. }
    rewrite Dp. cbn [rbind]. unfold refresh_capacity. destruct (w_on_disk W n d) eqn:Ew; [ | now eexists].
    assert (Ia : In a (disks v m)). { unfold disks. rewrite Em. apply filter_In. split; [now apply nth_error_In in Ha | apply str_eqb_eq; congruence]. }
    assert (If : In f (files v m)) by (apply in_files; now split).
    destruct (images a id f n d Ia If Fid (eq_trans (eq_sym Af) Bf) Fh T Ew) as [[r0 Hr0] (c & q & Hc & Hq & Hpos)].
    rewrite Hc. cbn [rbind]. unfold the_disks. cbn [m3 m_disks with_refs]. rewrite Em1. cbn [rbind]. unfold child_at. rewrite Hb. cbn [rbind].
    assert (Cr : exists r, get_capacity_from_disk E b = Ok r).
    { destruct Ra as [[-> _] | (_ & c0 & n0 & _ & _ & _ & Cap & _)]; eexists; apply capacity_spec; eassumption. }
    destruct Cr as [r ->]. cbn [rbind]. destruct (str_eqb (zdec r) c); [now eexists | ].
    assert (B : (0 < q < 2 ^ 63)%Z). { destruct (good n d c Hc) as (q' & Hq' & Bq). rewrite Hq in Hq'. injection Hq' as <-. lia. }
    destruct (new_capacity_ok c q Hq B) as [a' ->]. cbn [rbind]. now eexists.
  - assert (Dp : find_place s1 (DISK v) (DISK_FILE_REF v) (Some id) = Ok None).
    { apply find_place_nothing. intros i b Hb Bt Bf. pose proof (find_none _ _ Efind b (nth_error_In _ _ Hb)) as C. cbn beta in C.
      rewrite Bt, Bf, str_eqb_refl in C. cbn in C. rewrite str_eqb_refl in C. discriminate. }
    rewrite Dp. cbn [rbind]. now eexists.
Qed.
Lemma fold_ok : forall rest P m1, state E W m P m1 -> P ++ rest = live -> exists m2, fold_result (refresh_one E W fuel) rest m1 = Ok m2.
Proof.
  induction rest as [ | [n d] rest IH]; intros P m1 St Hl; cbn [fold_result]; [now eexists | ].
  destruct (step_ok P n d rest m1 St Hl) as [m2 H2]. rewrite H2. cbn [rbind].
  replace (P ++ (n, d) :: rest) with ((P ++ [(n, d)]) ++ rest) in Hl by now rewrite <- app_assoc.
  apply (IH (P ++ [(n, d)]) m2); [ | exact Hl].
  apply (step_state E W fuel m (proj1 S) good units P n d m1 m2 St); [ | | exact H2].
  - pose proof (live_distinct W m (proj1 S)) as N. change (NoDup (map fst live)) in N. rewrite <- Hl, map_app in N. now apply nodup_left in N.
  - change (incl (P ++ [(n, d)]) live). rewrite <- Hl. apply incl_appl, incl_refl.
Qed.
Lemma refresh_ok : exists m', refresh_files E W fuel m = Ok m'.
Proof.
  unfold refresh_files. rewrite live_ok. cbn [rbind].
  apply (fold_ok live [] (start E W m)); [apply start_state | reflexivity].
Qed.
End Ready.
