(** Proofs about disk space checks. *)
From Coq Require Import Lia.
From Verif Require Import PyBase PyBaseProofs SpaceModel SpaceSpec.
Local Open Scope Z_scope.

Lemma path_eqb_eq : forall a b, path_eqb a b = true <-> a = b.
Proof. intros a b. unfold path_eqb. destruct (list_eq_dec (list_eq_dec Ascii.ascii_dec) a b); intuition congruence. Qed.
Lemma path_eqb_neq : forall a b, path_eqb a b = false <-> a <> b.
Proof. intros a b. unfold path_eqb. destruct (list_eq_dec (list_eq_dec Ascii.ascii_dec) a b); intuition congruence. Qed.

Lemma nearest_spec : forall isdir p,
  let d := nearest_dir isdir p in
  is_prefix d (rev p) /\ (d = [] \/ isdir d = true) /\
  forall d', is_prefix d' (rev p) -> d' <> [] -> isdir d' = true -> (length d' <= length d)%nat.
Proof.
  intros isdir. induction p as [|x p IH]; cbn [nearest_dir].
  - split; [exists []; reflexivity|]. split; [now left|]. intros d' (t & E) N. destruct d'; [contradiction|discriminate].
  - destruct (isdir (rev (x :: p))) eqn:E.
    + split; [exists []; now rewrite app_nil_r|]. split; [now right|]. intros d' (t & Et) _ _. rewrite Et, app_length. lia.
    + destruct IH as ((t & H1) & H2 & H3). split; [|split; [exact H2|]].
      * exists (t ++ [x]). cbn [rev]. now rewrite app_assoc, <- H1.
      * intros d' (t' & Et) N Hd. apply H3; [|exact N|exact Hd].
        destruct (@exists_last _ t') as (t1 & y & ->).
        { intros ->. rewrite app_nil_r in Et. rewrite <- Et in Hd. congruence. }
        cbn [rev] in Et. rewrite app_assoc in Et. apply app_inj_tail in Et as [Et _]. exists t1. exact Et.
Qed.

Lemma check_dir_spec : forall k, checked_dir k (check_dir k).
Proof.
  intros k. unfold check_dir, checked_dir. pose proof (nearest_spec (k_isdir k) (rev (k_location k))) as H.
  cbn beta zeta in H. now rewrite rev_involutive in H.
Qed.

Lemma checked_dir_unique : forall k d d', checked_dir k d -> checked_dir k d' -> d = d'.
Proof.
  intros k d d' ((t & E) & H1 & H2) ((t' & E') & H1' & H2').
  assert (length d = length d')%nat as Hl.
  { apply Nat.le_antisymm.
    - destruct H1 as [-> |H1]; [cbn; lia|]. destruct d as [|x d]; [cbn; lia|]. apply H2'; [now exists t|discriminate|exact H1].
    - destruct H1' as [-> |H1']; [cbn; lia|]. destruct d' as [|x d']; [cbn; lia|]. apply H2; [now exists t'|discriminate|exact H1']. }
  assert (firstn (length d) (k_location k) = d) as <- by (rewrite E, firstn_app, Nat.sub_diag, firstn_all; apply app_nil_r).
  rewrite Hl. rewrite E', firstn_app, Nat.sub_diag, firstn_all. apply app_nil_r.
Qed.

Lemma measures_dec : forall k last, {measures k last} + {~ measures k last}.
Proof.
  intros k last. unfold measures. destruct (k_force k); [left; now left|].
  destruct last as [[r a]|]; [|left; now right]. destruct (Z_lt_dec r (k_required k)); [left; now right|right; intros [F|F]; [discriminate|contradiction]].
Qed.

(** What a check does, in terms of the cache. *)
Definition outcome (k : check) (d : path) (last : option (Z * Z)) : result bool * bool :=
  if measures_dec k last then
    if k_required k <=? k_available k d then (Ok true, false)
    else if k_answer k then (Ok true, true) else (if k_die k then (Err ESystemExit, true) else (Ok false, true))
  else match last with Some (_, a) => (Ok (k_required k <=? a), false) | None => (Ok false, false) end.

Lemma check_outcome : forall c k, let d := check_dir k in
  check_disk_space c k = (outcome k d (cache_get d c),
    if measures_dec k (cache_get d c) then (d, (k_required k, k_available k d)) :: c else c).
Proof.
  intros c k d. unfold check_disk_space, outcome. fold d.
  set (M := let available := k_available k d in
            let c' := (d, (k_required k, available)) :: c in
            if k_required k <=? available then (Ok true, false, c')
            else if k_die k then if k_answer k then (Ok true, true, c') else (Err ESystemExit, true, c')
            else (Ok (k_answer k), true, c')).
  assert (M = ((if k_required k <=? k_available k d then (Ok true, false)
    else if k_answer k then (Ok true, true) else (if k_die k then (Err ESystemExit, true) else (Ok false, true))),
    (d, (k_required k, k_available k d)) :: c)) as EM.
  { unfold M. cbv zeta. destruct (k_required k <=? k_available k d); [reflexivity|]. now destruct (k_die k), (k_answer k). }
  destruct (cache_get d c) as [[r a]|].
  - destruct (measures_dec k (Some (r, a))) as [Y|N].
    + replace (negb (k_force k) && (k_required k <=? r)) with false; [exact EM|].
      destruct Y as [-> |Y]; [reflexivity|]. destruct (Z.leb_spec (k_required k) r); [lia|]. now rewrite andb_false_r.
    + replace (negb (k_force k) && (k_required k <=? r)) with true; [reflexivity|].
      unfold measures in N. destruct (k_force k); [exfalso; tauto|]. cbn [negb andb]. symmetry. apply Z.leb_le. lia.
  - destruct (measures_dec k None) as [Y|N]; [exact EM|exfalso; apply N; now right].
Qed.

Lemma standing_cache : forall h d, standing h d (cache_get d (after_checks h)).
Proof.
  intros h. induction h as [|k h IH] using rev_ind; intros d; [constructor|].
  unfold after_checks. rewrite fold_left_app. cbn [fold_left]. fold (after_checks h).
  rewrite check_outcome. cbn [snd]. set (d0 := check_dir k). pose proof (check_dir_spec k) as Hd. fold d0 in Hd.
  destruct (measures_dec k (cache_get d0 (after_checks h))) as [Y|N].
  - cbn [cache_get]. destruct (path_eqb d d0) eqn:E.
    + apply path_eqb_eq in E as ->. eapply st_measured; [apply IH|exact Hd|exact Y].
    + apply path_eqb_neq in E. apply st_other with d0; auto.
  - destruct (path_eqb d d0) eqn:E.
    + apply path_eqb_eq in E as ->. apply st_kept; auto.
    + apply path_eqb_neq in E. apply st_other with d0; auto.
Qed.

Lemma standing_unique : forall h d x y, standing h d x -> standing h d y -> x = y.
Proof.
  intros h. induction h as [|k h IH] using rev_ind; intros d x y Hx Hy.
  - inversion Hx; subst; [|exfalso; eapply app_cons_not_nil; eauto..].
    inversion Hy; subst; [reflexivity|exfalso; eapply app_cons_not_nil; eauto..].
  - assert (forall z, standing (h ++ [k]) d z -> exists last, standing h d last /\
      ((exists d', checked_dir k d' /\ d' <> d /\ z = last) \/ (checked_dir k d /\ ~ measures k last /\ z = last) \/
       (checked_dir k d /\ measures k last /\ z = Some (k_required k, k_available k d)))) as Inv.
    { intros z Hz. inversion Hz; subst.
      - exfalso. eapply app_cons_not_nil. eauto.
      - match goal with E : _ ++ [_] = _ ++ [_] |- _ => apply app_inj_tail in E as [-> ->] end. eauto 10.
      - match goal with E : _ ++ [_] = _ ++ [_] |- _ => apply app_inj_tail in E as [-> ->] end. eauto 10.
      - match goal with E : _ ++ [_] = _ ++ [_] |- _ => apply app_inj_tail in E as [-> ->] end. eauto 10. }
    destruct (Inv x Hx) as (l1 & S1 & C1), (Inv y Hy) as (l2 & S2 & C2).
    pose proof (IH d l1 l2 S1 S2) as <-.
    destruct C1 as [(d1 & D1 & N1 & ->)|[(D1 & N1 & ->)|(D1 & N1 & ->)]],
      C2 as [(d2 & D2 & N2 & ->)|[(D2 & N2 & ->)|(D2 & N2 & ->)]]; try reflexivity; try contradiction;
      exfalso; match goal with N : _ <> _ |- _ => apply N; eapply checked_dir_unique; eauto end.
Qed.

(** ** The theorems *)

Section Check.
Variables (h : list check) (k : check) (d : path) (last : option (Z * Z)).
Hypothesis Hd : checked_dir k d.
Hypothesis Hs : standing h d last.

Lemma check_is : fst (check_disk_space (after_checks h) k) = outcome k d last.
Proof.
  rewrite check_outcome. cbn [fst]. rewrite (checked_dir_unique k _ d (check_dir_spec k) Hd).
  now rewrite (standing_unique h d _ last (standing_cache h d) Hs).
Qed.

Theorem check_measured : measures k last ->
  fst (check_disk_space (after_checks h) k) =
  if k_required k <=? k_available k d then (Ok true, false)
  else if k_answer k then (Ok true, true)
  else if k_die k then (Err ESystemExit, true) else (Ok false, true).
Proof. intros M. rewrite check_is. unfold outcome. destruct (measures_dec k last); [reflexivity|contradiction]. Qed.

Theorem check_remembered : ~ measures k last -> exists r a, last = Some (r, a) /\
  fst (check_disk_space (after_checks h) k) = (Ok (k_required k <=? a), false).
Proof.
  intros M. rewrite check_is. unfold outcome. destruct (measures_dec k last); [contradiction|].
  destruct last as [[r a]|]; [eauto|]. exfalso. apply M. now right.
Qed.
End Check.

Theorem check_safe : forall h k d last asked, checked_dir k d -> standing h d last ->
  fst (check_disk_space (after_checks h) k) = (Ok true, asked) ->
  (asked = true /\ k_answer k = true) \/
  (measures k last /\ k_required k <= k_available k d) \/
  (exists r a, last = Some (r, a) /\ ~ measures k last /\ k_required k <= a).
Proof.
  intros h k d last asked Hd Hs H. destruct (measures_dec k last) as [Y|N].
  - rewrite (check_measured h k d last Hd Hs Y) in H.
    destruct (Z.leb_spec (k_required k) (k_available k d)); [right; left; auto|].
    destruct (k_answer k); [injection H as <-; now left|]. destruct (k_die k); discriminate.
  - destruct (check_remembered h k d last Hd Hs N) as (r & a & E & F). rewrite F in H. injection H as H _.
    right. right. exists r, a. split; [exact E|]. split; [exact N|now apply Z.leb_le].
Qed.

Theorem check_repeat : forall h k1 k2 d, checked_dir k1 d -> checked_dir k2 d ->
  k_force k2 = false -> k_required k2 = k_required k1 ->
  snd (fst (check_disk_space (after_checks (h ++ [k1])) k2)) = false.
Proof.
  intros h k1 k2 d H1 H2 Hf Hr. pose proof (standing_cache h d) as S. set (last := cache_get d (after_checks h)) in *.
  destruct (measures_dec k1 last) as [Y|N].
  - pose proof (st_measured h k1 d last S H1 Y) as S'.
    assert (~ measures k2 (Some (k_required k1, k_available k1 d))) as N.
    { intros [F|F]; [congruence|lia]. }
    destruct (check_remembered _ k2 d _ H2 S' N) as (r & a & _ & ->). reflexivity.
  - pose proof (st_kept h k1 d last S H1 N) as S'.
    assert (~ measures k2 last) as N'.
    { intros [F|F]; [congruence|]. apply N. right. now rewrite <- Hr. }
    destruct (check_remembered _ k2 d _ H2 S' N') as (r & a & _ & ->). reflexivity.
Qed.

Theorem check_total : forall h k, exists d last, checked_dir k d /\ standing h d last /\
  forall d' last', checked_dir k d' -> standing h d' last' -> d' = d /\ last' = last.
Proof.
  intros h k. exists (check_dir k), (cache_get (check_dir k) (after_checks h)).
  split; [apply check_dir_spec|]. split; [apply standing_cache|]. intros d' last' D S.
  pose proof (checked_dir_unique k _ _ D (check_dir_spec k)) as ->. split; [reflexivity|].
  exact (standing_unique h _ _ _ S (standing_cache h _)).
Qed.
