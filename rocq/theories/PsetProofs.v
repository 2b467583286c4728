(** Sets of profiles. *)
From Coq Require Import Lia.
From Verif Require Import PyBase PyBaseProofs PyDict PyDictProofs ItemModel.

Lemma strs_eqb_eq : forall a b, strs_eqb a b = true <-> a = b.
Proof.
  induction a as [|x a IH]; intros [|y b]; cbn; split; intros H; try discriminate; auto.
  - apply andb_true_iff in H as [H1 H2]. apply str_eqb_eq in H1. apply IH in H2. congruence.
  - injection H as -> ->. now rewrite str_eqb_refl, (proj2 (IH b) eq_refl).
Qed.

Lemma value_eqb_eq : forall a b, value_eqb a b = true <-> a = b.
Proof.
  intros [x|x] [y|y]; cbn; split; intros H; try discriminate.
  - f_equal. now apply str_eqb_eq.
  - injection H as ->. apply str_eqb_refl.
  - f_equal. now apply strs_eqb_eq.
  - injection H as ->. now apply strs_eqb_eq.
Qed.

Lemma value_eqb_neq : forall a b, value_eqb a b = false <-> a <> b.
Proof.
  intros a b. rewrite <- value_eqb_eq. destruct (value_eqb a b); split; congruence.
Qed.

Lemma value_eqb_refl : forall a, value_eqb a a = true.
Proof. intros. now apply value_eqb_eq. Qed.

Lemma profile_eqb_eq : forall a b, profile_eqb a b = true <-> a = b.
Proof.
  intros [x|] [y|]; cbn; split; intros H; try discriminate; auto.
  - f_equal. now apply str_eqb_eq.
  - injection H as ->. apply str_eqb_refl.
Qed.

Lemma pmem_In : forall p s, pmem p s = true <-> In p s.
Proof.
  intros p s. unfold pmem. rewrite existsb_exists. split.
  - intros (q & Hq & E). apply profile_eqb_eq in E. now subst.
  - intros H. exists p. split; [exact H|now apply profile_eqb_eq].
Qed.
Lemma pmem_false : forall p s, pmem p s = false <-> ~ In p s.
Proof. intros p s. rewrite <- pmem_In. destruct (pmem p s); split; congruence. Qed.

Definition profile_eq_dec (a b : profile) : {a = b} + {a <> b}.
Proof. decide equality. apply str_eq_dec. Defined.
Lemma In_profile_dec : forall (p : profile) s, In p s \/ ~ In p s.
Proof. intros. destruct (in_dec profile_eq_dec p s); auto. Qed.

Lemma padd_In : forall s p q, In q (padd s p) <-> In q s \/ q = p.
Proof.
  intros s p q. unfold padd. destruct (pmem p s) eqn:E.
  - apply pmem_In in E. split; [tauto|]. intros [H| ->]; auto.
  - rewrite in_app_iff. cbn. intuition.
Qed.
Lemma NoDup_snoc : forall (A : Type) (l : list A) x, NoDup l -> ~ In x l -> NoDup (l ++ [x]).
Proof.
  intros A l x H Hn. induction l as [|y l IH]; cbn; [repeat constructor; intros []|].
  inversion H; subst. constructor.
  - rewrite in_app_iff. cbn. intros [H1|[H1|[]]]; [auto|]. subst. apply Hn. now left.
  - apply IH; auto. intros H1. apply Hn. now right.
Qed.
Lemma padd_NoDup : forall s p, NoDup s -> NoDup (padd s p).
Proof.
  intros s p H. unfold padd. destruct (pmem p s) eqn:E; [exact H|].
  apply pmem_false in E. now apply NoDup_snoc.
Qed.
Lemma punion_In : forall b a q, In q (punion a b) <-> In q a \/ In q b.
Proof.
  unfold punion. induction b as [|p b IH]; intros a q; cbn; [tauto|].
  rewrite IH, padd_In. intuition.
Qed.
Lemma punion_NoDup : forall b a, NoDup a -> NoDup (punion a b).
Proof.
  unfold punion. induction b as [|p b IH]; intros a H; cbn; [exact H|].
  apply IH. now apply padd_NoDup.
Qed.
Lemma pset_of_In : forall l q, In q (pset_of l) <-> In q l.
Proof. intros. unfold pset_of. rewrite punion_In. cbn. tauto. Qed.
Lemma pset_of_NoDup : forall l, NoDup (pset_of l).
Proof. intros. apply punion_NoDup. constructor. Qed.

Lemma pdiff_In : forall a b q, In q (pdiff a b) <-> In q a /\ ~ In q b.
Proof. intros. unfold pdiff. rewrite filter_In, negb_true_iff, pmem_false. reflexivity. Qed.
Lemma pinter_In : forall a b q, In q (pinter a b) <-> In q a /\ In q b.
Proof. intros. unfold pinter. rewrite filter_In, pmem_In. reflexivity. Qed.
Lemma pdiff_NoDup : forall a b, NoDup a -> NoDup (pdiff a b).
Proof. intros. now apply NoDup_filter. Qed.
Lemma pinter_NoDup : forall a b, NoDup a -> NoDup (pinter a b).
Proof. intros. now apply NoDup_filter. Qed.
Lemma psubset_spec : forall a b, psubset a b = true <-> forall q, In q a -> In q b.
Proof.
  intros. unfold psubset. rewrite forallb_forall. split; intros H q Hq.
  - apply pmem_In. auto.
  - apply pmem_In. auto.
Qed.
Lemma pset_eqb_spec : forall a b, pset_eqb a b = true <-> forall q, In q a <-> In q b.
Proof.
  intros. unfold pset_eqb. rewrite andb_true_iff, !psubset_spec. firstorder.
Qed.
Lemma is_nil_true : forall (A : Type) (l : list A), is_nil l = true <-> l = [].
Proof. intros A [|x l]; cbn; split; congruence. Qed.
Lemma is_nil_false : forall (A : Type) (l : list A), is_nil l = false <-> l <> [].
Proof. intros A [|x l]; cbn; split; congruence. Qed.
Lemma is_nil_pinter : forall a b, is_nil (pinter a b) = true <-> forall q, In q a -> ~ In q b.
Proof.
  intros a b. rewrite is_nil_true. split.
  - intros H q Ha Hb. assert (Hq : In q (pinter a b)) by now apply pinter_In.
    rewrite H in Hq. contradiction.
  - intros H. destruct (pinter a b) as [|q l] eqn:E; [reflexivity|exfalso].
    assert (Hq : In q (pinter a b)) by (rewrite E; now left).
    apply pinter_In in Hq as [H1 H2]. now apply (H q).
Qed.
Lemma is_nil_pinter_false : forall a b,
  is_nil (pinter a b) = false <-> exists q, In q a /\ In q b.
Proof.
  intros a b. rewrite is_nil_false. split.
  - intros H. destruct (pinter a b) as [|q l] eqn:E; [contradiction|].
    exists q. apply pinter_In. rewrite E. now left.
  - intros (q & Ha & Hb) E. assert (Hq : In q (pinter a b)) by now apply pinter_In.
    rewrite E in Hq. contradiction.
Qed.

(** A set with the default and nothing else is [[None]]. *)
Lemma only_None : forall s : pset, NoDup s -> In None s -> length s <= 1 -> s = [None].
Proof.
  intros [|a [|b s]] _ H Hl; cbn in *; [contradiction| |lia].
  destruct H as [->|[]]. reflexivity.
Qed.
