(** The partition of the profiles in terms of recorded values
    (COT/vm_description/ovf/item.py:717-759), and lookups for a whole cell. *)
From Coq Require Import Lia Permutation Sorting.Sorted.
From Verif Require Import PyBase PyBaseProofs PyDict PyDictProofs ValidationModel ValidationSpec
  ValidationProofs XmlModel NamesModel ItemModel ItemSpec PsetProofs ItemProofs ItemSetProofs
  ItemProfileProofs ItemReachProofs PartitionProofs LookupProofs.

Lemma all_sets_In : forall ps (N : pset),
  In N (flat_map (fun nd : str * vdict => map snd (snd nd)) ps) <->
  exists n d v, In (n, d) ps /\ In (v, N) d.
Proof.
  intros ps N. rewrite in_flat_map. split.
  - intros ((n & d) & H & HN). cbn in HN. apply in_map_iff in HN as ((v & s) & E & Hs).
    cbn in E. subst s. now exists n, d, v.
  - intros (n & d & v & H & Hs). exists (n, d). split; [exact H|]. cbn.
    apply in_map_iff. now exists (v, N).
Qed.

Lemma NoDup_fst_fun : forall (A B : Type) (l : list (A * B)) k a b, NoDup (map fst l) ->
  In (k, a) l -> In (k, b) l -> a = b.
Proof.
  induction l as [|[k' c] l IH]; intros k a b H Ha Hb; [contradiction|]. cbn in H.
  inversion H as [|x y H1 H2]; subst. destruct Ha as [Ha|Ha], Hb as [Hb|Hb].
  - congruence.
  - injection Ha as -> ->. exfalso. apply H1. apply in_map_iff. now exists (k, b).
  - injection Hb as -> ->. exfalso. apply H1. apply in_map_iff. now exists (k, a).
  - now apply (IH k).
Qed.

Record parts (ps : props) (L : list pset) : Prop := {
  p_ne : forall s, In s L -> s <> [] /\ NoDup s;
  p_apart : ForallOrdPairs (fun s t => forall q : profile, In q s -> ~ In q t) L;
  p_same : forall s t q, In s L -> In t L -> In q s -> In q t -> s = t;
  p_cover : forall q, (exists s, In s L /\ In q s) <-> exists n v, own ps n q v;
  p_class : forall s q r, In s L -> In q s ->
    (In r s <-> forall n v, own ps n q v <-> own ps n r v);
  p_default : forall s, In s L -> In None s -> s = [None] }.

Theorem partition_parts : forall ver ps, good_props ver ps -> parts ps (partition ps).
Proof.
  intros ver ps (G1 & G2 & G3). unfold partition.
  set (Ns := flat_map (fun nd : str * vdict => map snd (snd nd)) ps).
  assert (HN : forall N, In N Ns -> NoDup N).
  { intros N H. apply all_sets_In in H as (n & d & v & H & Hs).
    destruct (G2 n d H) as (_ & K & _). now apply (K v N). }
  pose proof (partition_sets Ns [] [] cells_nil HN) as C. cbn [app] in C.
  set (L := fold_left partition_step Ns []) in *.
  assert (Cov : forall q, (exists s, In s L /\ In q s) <-> exists n v, own ps n q v).
  { intros q. rewrite (c_cover _ _ C). split.
    - intros (N & H & Hq). apply all_sets_In in H as (n & d & v & H & Hs).
      exists n, v. exists d, N. auto.
    - intros (n & v & d & s & H & Hs & Hq). exists s. split; [|exact Hq].
      apply all_sets_In. now exists n, d, v. }
  assert (Cls : forall s q r, In s L -> In q s ->
    (In r s <-> forall n v, own ps n q v <-> own ps n r v)).
  { assert (K : forall q r, (forall N, In N Ns -> In q N -> In r N) <->
      (forall n v, own ps n q v -> own ps n r v)).
    { intros q r. split.
      - intros H n v (d & s & Hd & Hs & Hq). exists d, s. split; [exact Hd|]. split; [exact Hs|].
        apply H; [|exact Hq]. apply all_sets_In. now exists n, d, v.
      - intros H N HNin Hq. apply all_sets_In in HNin as (n & d & v & Hd & Hs).
        destruct (H n v) as (d' & s' & Hd' & Hs' & Hr).
        { exists d, N. auto. }
        assert (d' = d) as -> by now apply (NoDup_fst_fun _ _ ps n).
        destruct (G2 n d Hd) as (K1 & _ & _).
        assert (s' = N) as -> by now apply (NoDup_fst_fun _ _ d v). exact Hr. }
    intros s q r Hs Hq. rewrite (c_class _ _ C s q r Hs Hq). split.
    - intros H n v. split; apply K; intros N HNin; now apply H.
    - intros H N HNin. split; [apply (proj2 (K q r))|apply (proj2 (K r q))]; auto; intros n v; apply H. }
  constructor.
  - apply (c_ne _ _ C).
  - apply (cells_pairs _ _ C).
  - apply (c_dis _ _ C).
  - exact Cov.
  - exact Cls.
  - intros s Hs Hn. destruct (proj1 (Cov None)) as (n & v & Hv); [now exists s|].
    assert (One : forall r, In r s -> r = None).
    { intros r Hr. pose proof (proj1 (Cls s None r Hs Hn) Hr n v) as [K _].
      destruct (K Hv) as (d' & s' & Hd' & Hs' & Hr'). destruct Hv as (d & t & Hd & Ht & HNt).
      assert (d' = d) as -> by now apply (NoDup_fst_fun _ _ ps n).
      destruct (G2 n d Hd) as (K1 & K2 & _).
      assert (s' = t) as -> by now apply (NoDup_fst_fun _ _ d v).
      destruct (K2 v t Ht) as (_ & _ & _ & K3). rewrite (K3 HNt) in Hr'.
      destruct Hr' as [<-|[]]. reflexivity. }
    destruct (c_ne _ _ C s Hs) as [_ ND]. destruct s as [|a [|b s]].
    + contradiction.
    + rewrite (One a) by now left. reflexivity.
    + exfalso. inversion ND as [|x y H1 _]; subst. apply H1. left.
      rewrite (One a), (One b); [reflexivity|right; now left|now left].
Qed.

(** Profiles with the same records are interchangeable in lookups. *)
Lemma get_raw_uniform : forall ver ps n P q, good_props ver ps -> P <> [] ->
  (forall p, In p P -> forall v, holds ps n p v <-> holds ps n q v) ->
  get_raw ps n (Some P) = get_raw ps n (Some [q]).
Proof.
  intros ver ps n P q G HP H.
  assert (K : forall v, get_raw ps n (Some P) = Some v <-> get_raw ps n (Some [q]) = Some v).
  { intros v. rewrite (get_raw_set _ _ _ _ _ G HP), (get_raw_holds _ _ _ _ _ G). split.
    - intros K. destruct P as [|p P]; [contradiction|]. apply (H p); [now left|]. apply K. now left.
    - intros K p Hp. now apply H. }
  destruct (get_raw ps n (Some P)) as [v|] eqn:E1.
  - symmetry. now apply K.
  - destruct (get_raw ps n (Some [q])) as [v|] eqn:E2; [|reflexivity].
    now apply K.
Qed.
Lemma get_value_uniform : forall E ps n P q, good_props (e_ver E) ps -> P <> [] ->
  (forall p, In p P -> forall m v, holds ps m p v <-> holds ps m q v) ->
  get_value E ps n (Some P) = get_value E ps n (Some [q]).
Proof.
  intros E ps n P q G HP H. apply get_value_agree. intros m.
  apply (get_raw_uniform (e_ver E)); auto.
Qed.

Lemma own_same_holds : forall ps q r n,
  (forall v, own ps n q v <-> own ps n r v) -> forall v, holds ps n q v <-> holds ps n r v.
Proof.
  intros ps q r n H v. unfold holds. rewrite (H v). split; intros [K|[K1 K2]]; auto; right;
    (split; [|exact K2]); intros w Hw; apply (K1 w); now apply H.
Qed.

(** ** Lists of names in one attribute *)

Lemma words_join : forall l, (forall w, In w l -> w <> [] /\ spaceless w) ->
  words (join (L " ") l) = l.
Proof.
  induction l as [|x l IH]; intros H; [reflexivity|].
  destruct (H x (or_introl eq_refl)) as [H1 H2].
  destruct l as [|y l].
  - cbn [join]. unfold words. rewrite words_aux_spaceless by exact H2. cbn. now destruct x.
  - change (join (L " ") (x :: y :: l)) with (x ++ " "%char :: join (L " ") (y :: l)).
    unfold words. rewrite words_aux_cut; [|exact H2|reflexivity|exact H1]. cbn [rev app].
    f_equal. apply IH. intros w Hw. apply H. now right.
Qed.

Lemma join_nil : forall sep l, (forall w : str, In w l -> w <> []) -> join sep l = [] -> l = [].
Proof.
  intros sep [|x [|y l]] H E; [reflexivity| |].
  - cbn in E. subst. now destruct (H []); [left|].
  - exfalso. cbn [join] in E. destruct x; [|discriminate]. now apply (H []); [left|].
Qed.

Lemma names_of_In : forall s x, In x (names_of s) <-> In (Some x) s.
Proof.
  intros s x. unfold names_of. rewrite in_flat_map. split.
  - intros ([y|] & H & K); cbn in K; [destruct K as [<-|[]]; exact H|contradiction].
  - intros H. exists (Some x). split; [exact H|now left].
Qed.

(** ** The empty text comes first *)

Lemma splits_nil : forall k, splits [] k -> k = [TText []].
Proof.
  intros k H. inversion H as [s ts K|d s ts H1 H2 K E]; subst.
  - inversion K as [t Ht|t d s ts' H1 H2 H3 H4 H5 E]; subst; [reflexivity|].
    exfalso. destruct t; [now apply H2|discriminate].
  - exfalso. destruct d; [congruence|discriminate].
Qed.
Lemma splits_empty_text : forall s, splits s [TText []] -> s = [].
Proof.
  intros s H. inversion H as [s' ts K|]; subst. inversion K. reflexivity.
Qed.
Lemma splits_no_keys : forall s, ~ splits s [].
Proof. intros s H. inversion H as [s' ts K|]; subst. inversion K. Qed.

Lemma natural_lt_nil : forall s, s <> [] -> natural_lt [] s.
Proof.
  intros s Hs. destruct (natural_order [] s) as [(H & _)|[(_ & (k & K1 & K2) & _)|(_ & _ & H)]].
  - exact H.
  - apply splits_nil in K1. subst k. apply splits_empty_text in K2. contradiction.
  - exfalso. destruct H as (k1 & k2 & K1 & K2 & H). apply splits_nil in K2. subst k2.
    inversion H as [y b E|x y a b H1|m n a b H1|x a b H1]; subst.
    + now apply splits_no_keys in K1.
    + inversion H1.
    + inversion H1.
Qed.

Lemma sorted_empty_first : forall l out, stably_sorted l out -> NoDup l -> In [] l ->
  exists rest, out = [] :: rest /\ (forall s, In s rest -> s <> []).
Proof.
  intros l out (P & S & _) ND Hin.
  assert (Hin' : In [] out) by now apply (Permutation_in _ P).
  assert (ND' : NoDup out) by now apply (Permutation_NoDup P).
  apply in_split in Hin' as (a & b & ->).
  assert (a = []) as ->.
  { destruct a as [|x a]; [reflexivity|]. exfalso. cbn in S, ND'.
    inversion S as [|u v S1 S2]; subst. inversion ND' as [|u v N1 N2]; subst.
    rewrite Forall_forall in S2. apply (S2 []); [apply in_or_app; right; now left|].
    apply natural_lt_nil. intros ->. apply N1. apply in_or_app. right. now left. }
  exists b. split; [reflexivity|]. cbn in ND'. inversion ND' as [|u v N1 N2]; subst.
  intros s Hs ->. contradiction.
Qed.
